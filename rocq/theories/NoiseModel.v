(** * Noise level, noise filling and scaling of the spectrum: src/spec.c
    The float numbers are integers in units of 2^-149 ([FloatModel]). An access out of the
    spectrum, a signed overflow and the conversion of a float out of the range of [int] are
    [None]. The counters of lines ([i], [z], [ns]) are bounded by the spectrum. *)
From Coq Require Import ZArith List Bool.
From Verif Require Import Base ConfigModel FloatModel SideModel FrameModel GainModel.
Import ListNotations.
Local Open Scope Z_scope.

(** The quotient [a / n] of a non-negative number and a positive integer, rounded to
    nearest, ties to even, to the binary32 format. *)
Definition rnd_quot (a n : Z) : Z :=
  let e := f_exp (a / n) in
  let q := a / (n * 2 ^ e) in
  let r := a mod (n * 2 ^ e) in
  (if (2 * r <? n * 2 ^ e) || ((2 * r =? n * 2 ^ e) && Z.even q) then q else q + 1) * 2 ^ e.

(** The product of two floats: [a * b * 2^-298] rounded to the format. *)
Definition fmul (a b : Z) : Z := Z.sgn a * Z.sgn b * rnd_quot (Z.abs a * Z.abs b) one.

Definition read (x : list Z) (i : Z) : option Z := if inb i (zlen x) then Some (znth x i 0) else None.
Definition write (x : list Z) (i v : Z) : option (list Z) := if inb i (zlen x) then Some (upd x i v) else None.

(** src/spec.c lines 717-718 and 749-750: the end of the bandwidth, and half of the width
    of the windows of lines. *)
Definition bw_stop (dt bw : Z) : Z := c_ne dt (Z.min bw 4).
Definition nf_width (dt : Z) : Z := 1 + b2z (DT_7M5 <=? dt) + b2z (DT_10M <=? dt).
(** src/spec.c lines 724 and 755: the first line read. *)
Definition nf_start (dt : Z) : Z := 6 * (1 + dt) - nf_width dt.

(** ** Encoder *)

(** src/spec.c lines 726-727 and 731-732: the contribution of the line [i - w]. *)
Definition est_add (w : Z) (x : list Z) (i z sum ns : Z) : option (Z * Z) :=
  if 2 * w <? z then do u <- read x (i - w); Some (rnd (sum + Z.abs u), ns + 1) else Some (sum, ns).
(** src/spec.c lines 724-728: [k] iterations from [i]. *)
Fixpoint est_first (k : nat) (w lim : Z) (x : list Z) (i z sum ns : Z) : option (Z * Z * Z * Z) :=
  match k with
  | O => Some (i, z, sum, ns)
  | S k =>
      do v <- read x i;
      let z := if Z.abs v <? lim then z + 1 else 0 in
      do a <- est_add w x i z sum ns;
      est_first k w lim x (i + 1) z (fst a) (snd a)
  end.
(** src/spec.c lines 730-732. *)
Fixpoint est_second (k : nat) (w : Z) (x : list Z) (i z sum ns : Z) : option (Z * Z) :=
  match k with
  | O => Some (sum, ns)
  | S k =>
      let z := z + 1 in
      do a <- est_add w x i z sum ns;
      est_second k w x (i + 1) z (fst a) (snd a)
  end.

(** src/spec.c lines 714-737: estimate_noise; the product by 16 is exact, the conversion
    truncates. *)
Definition estimate_noise (dt bw : Z) (hr : bool) (x : list Z) (n : Z) : option Z :=
  let w := nf_width dt in
  let lim := if hr then one / 2 else 10 * one / 16 in
  let stop := bw_stop dt bw in
  do a <- est_first (Z.to_nat (Z.min n stop - nf_start dt)) w lim x (nf_start dt) 0 0 0;
  let '(i, z, sum, ns) := a in
  do b <- est_second (Z.to_nat (stop + w - i)) w x i z sum ns;
  let '(sum, ns) := b in
  do nf <- (if ns =? 0 then Some 8 else do c <- cint (rnd (rnd_quot (16 * sum) ns + one / 2) / one); cint (8 - c));
  Some (clip nf 0 7).

(** ** Decoder *)

(** src/spec.c lines 758 and 765: the generator; the operand is promoted to [int]. *)
Definition next_seed (seed : Z) : option Z :=
  do p <- cint (seed * 31821); do s <- cint (13849 + p); Some (Z.land s 0xffff).
(** src/spec.c lines 757-760 and 764-767: the line [i - w]. *)
Definition fill_line (w s : Z) (x : list Z) (i z seed : Z) : option (list Z * Z) :=
  if 2 * w <? z then
    do seed <- next_seed seed;
    do x <- write x (i - w) (if Z.land seed 0x8000 =? 0 then s else - s); Some (x, seed)
  else Some (x, seed).
(** src/spec.c lines 755-761. *)
Fixpoint fill_first (k : nat) (w s : Z) (x : list Z) (i z seed : Z) : option (list Z * Z * Z * Z) :=
  match k with
  | O => Some (x, i, z, seed)
  | S k =>
      do v <- read x i;
      let z := if v =? 0 then z + 1 else 0 in
      do a <- fill_line w s x i z seed;
      fill_first k w s (fst a) (i + 1) z (snd a)
  end.
(** src/spec.c lines 763-767. *)
Fixpoint fill_second (k : nat) (w s : Z) (x : list Z) (i z seed : Z) : option (list Z) :=
  match k with
  | O => Some x
  | S k =>
      let z := z + 1 in
      do a <- fill_line w s x i z seed;
      fill_second k w s (fst a) (i + 1) z (snd a)
  end.

(** src/spec.c lines 746-768: fill_noise; the division by 16 is exact. *)
Definition fill_noise (dt bw nf seed g : Z) (x : list Z) (nq : Z) : option (list Z) :=
  let w := nf_width dt in
  let stop := bw_stop dt bw in
  let s := fmul g ((8 - nf) * one) / 16 in
  do a <- fill_first (Z.to_nat (Z.min nq stop - nf_start dt)) w s x (nf_start dt) 0 seed;
  let '(x, i, z, seed) := a in
  fill_second (Z.to_nat (stop + w - i)) w s x i z seed.

(** The value of a gain. *)
Definition gain_float (a : pfloat) : Z := fst a * 2 ^ (snd a + 149).

(** src/spec.c lines 277-291: unquantize; [xs] are the [nq] coefficients. *)
Definition unquantize (dt sr g : Z) (xs : list Z) : list Z :=
  map (fun x => fmul x g) xs ++ repeat 0 (Z.to_nat (c_ne dt sr - zlen xs)).

(** src/spec.c lines 952-956: the end of lc3_spec_decode, from the parsed frame. *)
Definition spec_finish (dt sr nbytes : Z) (d : decoded) : option (list Z) :=
  do a <- unquantize_gain (q_gidx (d_side d) - gain_offset sr nbytes);
  let g := gain_float a in
  let x := unquantize dt sr g (d_x d) in
  let nq := q_nq (d_side d) in
  do x0 <- read x 0; do x1 <- read x 1;
  if (2 <? nq) || negb (x0 =? 0) || negb (x1 =? 0) || (0 <? q_gidx (d_side d)) || (d_nf d <? 7)
  then fill_noise dt (d_bw d) (d_nf d) (d_seed d) g x nq
  else Some x.
