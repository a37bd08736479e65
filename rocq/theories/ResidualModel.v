(** * Quantization and residual bits, on single precision numbers
    Numbers are those of [FloatModel]; [fl] is the rounding of the additions: [rnd]
    in the C code, the identity for exact arithmetic. *)
From Coq Require Import ZArith List Bool.
From Verif Require Import Base BitsModel FloatModel.
Import ListNotations.
Local Open Scope Z_scope.

(** src/spec.c lines 436-438 (also 346-348, 642-644): quantized value of [x]; the
    sign is not part of the C value, it is tested on [x] itself. *)
Definition quant_off (hr : bool) : Z := if hr then one / 2 else 6 * one / 16.
Definition quant (fl : Z -> Z) (hr : bool) (x : Z) : Z :=
  Z.sgn x * (fl (Z.abs x + quant_off hr) / one).

(** src/spec.c lines 577-578. *)
Definition res_lim (hr : bool) : Z := if hr then one / 2 else 10 * one / 16.
(** src/spec.c lines 580 and 612: iterations. *)
Definition res_iters (hr : bool) : nat := if hr then 20 else 1.

(** src/spec.c lines 581-593: a pass on the coefficients. The difference with
    [truncf] is exact. *)
Fixpoint put_res_pass (fl : Z -> Z) (lim off nbits : Z) (xs : list Z) (w : wst)
  : list Z * Z * wst :=
  match xs with
  | [] => ([], nbits, w)
  | x :: xs' =>
      if nbits <=? 0 then (xs, nbits, w)
      else if Z.abs x <? lim then
        let '(ys, nbits, w) := put_res_pass fl lim off nbits xs' w in (x :: ys, nbits, w)
      else
        let b := xorb (Z.abs x mod one <? lim) (x <? 0) in
        let w := put_bits w (b2z b) 1 in
        let x := fl (if b then x - off else x + off) in
        let '(ys, nbits, w) := put_res_pass fl lim off (nbits - 1) xs' w in (x :: ys, nbits, w)
  end.

(** src/spec.c lines 580-596: the passes; [off * lim] is exact. *)
Fixpoint put_res_iter (n : nat) (fl : Z -> Z) (lim off nbits : Z) (xs : list Z) (w : wst) : wst :=
  match n with
  | O => w
  | S n =>
      if nbits <=? 0 then w
      else
        let '(xs, nbits, w) := put_res_pass fl lim off nbits xs w in
        put_res_iter n fl lim (off * lim / one) nbits xs w
  end.

(** src/spec.c lines 574-597: put_residual. *)
Definition put_residual (fl : Z -> Z) (w : wst) (nbits : Z) (hr : bool) (xs : list Z) : wst :=
  put_res_iter (res_iters hr) fl (res_lim hr) (res_lim hr / 2) nbits xs w.

(** src/spec.c lines 613-624. *)
Fixpoint get_res_pass (fl : Z -> Z) (off1 off2 nbits : Z) (xs : list Z) (r : rst)
  : (list Z * Z) * rst :=
  match xs with
  | [] => (([], nbits), r)
  | x :: xs' =>
      if nbits <=? 0 then ((xs, nbits), r)
      else if x =? 0 then
        let '((ys, nbits), r) := get_res_pass fl off1 off2 nbits xs' r in ((x :: ys, nbits), r)
      else
        let '(b, r) := get_bit r in
        let x := fl (if b =? 0 then x - (if x <? 0 then off1 else off2)
                     else x + (if 0 <? x then off1 else off2)) in
        let '((ys, nbits), r) := get_res_pass fl off1 off2 (nbits - 1) xs' r in
        ((x :: ys, nbits), r)
  end.

(** src/spec.c lines 612-628; the halving is exact. *)
Fixpoint get_res_iter (n : nat) (fl : Z -> Z) (off1 off2 nbits : Z) (xs : list Z) (r : rst)
  : list Z * rst :=
  match n with
  | O => (xs, r)
  | S n =>
      if nbits <=? 0 then (xs, r)
      else
        let '((xs, nbits), r) := get_res_pass fl off1 off2 nbits xs r in
        get_res_iter n fl (off1 / 2) (off2 / 2) nbits xs r
  end.

(** src/spec.c lines 605-629: get_residual. *)
Definition get_residual (fl : Z -> Z) (r : rst) (nbits : Z) (hr : bool) (xs : list Z)
  : list Z * rst :=
  get_res_iter (res_iters hr) fl (if hr then one / 4 else 5 * one / 16)
    (if hr then one / 4 else 3 * one / 16) nbits xs r.
