(** * Temporal noise shaping, analysis and synthesis: src/tns.c
    The floats are abstract ([FloatOps]). The elements of the local arrays that the C code
    leaves without initial value are all [junk], an unspecified number. *)
From Coq Require Import ZArith List Bool.
From Verif Require Import Base ConfigModel SideModel ShapeTables FloatOps.
Import ListNotations.
Local Open Scope Z_scope.

(** src/tns.c lines 64-90 and 98-121: limits of the sub-bands of the autocorrelation; []
    stands for an absent entry (7.5 ms in high resolution). *)
Definition tns_sub (dt bw : Z) : list Z :=
  znth (znth [
    [[3; 10; 20]; [3; 20; 40]; [3; 30; 60]; [3; 40; 80]; [3; 51; 100]; [3; 51; 100]; [3; 51; 100]];
    [[6; 23; 40]; [6; 43; 80]; [6; 63; 120]; [6; 43; 80; 120; 160]; [6; 53; 100; 150; 200]; [6; 53; 100; 150; 200]; [6; 53; 100; 150; 200]];
    [[9; 26; 43; 60]; [9; 46; 83; 120]; [9; 66; 123; 180]; [9; 46; 82; 120; 159; 200; 240]; [9; 56; 103; 150; 200; 250; 300]; []; []];
    [[12; 34; 57; 80]; [12; 61; 110; 160]; [12; 88; 164; 240]; [12; 61; 110; 160; 213; 266; 320];
     [12; 74; 137; 200; 266; 333; 400]; [12; 74; 137; 200; 266; 333; 400]; [12; 74; 137; 200; 266; 333; 400]]] dt []) bw [].

Section Tns.
Context {F : Type} (fl : fops F) (junk : F).
Let f0 : F := f_z fl 0.

(** src/tns.c lines 42-50: dot, on [n] elements from [i] and from [j]; the count may be null
    but not negative ([while (n--)] would not end). *)
Definition dot (x : list F) (i j n : Z) : option F :=
  if n <? 0 then None
  else for_ 0 n (fun k v => do a <- rd x (i + k); do b <- rd x (j + k); Some (f_add fl v (f_mul fl a b))) f0.

(** src/tns.c lines 133-138: the correlations of the sub-band [s] of the filter [f]. *)
Definition sub_corr (sub : list Z) (nsub maxorder : Z) (x : list F) (f s : Z) : option (list F) :=
  do xs <- rd sub (f * nsub + s);
  do xe <- rd sub (f * nsub + s + 1);
  for_ 0 (maxorder + 1) (fun k c => do v <- dot x xs (xs + k) (xe - xs - k); wr c k v) (repeat f0 9).

(** src/tns.c lines 140-152: normalized autocorrelation of the filter [f]; the rows of c
    are indexed by sub-bands first here. *)
Definition autocorr (dt bw maxorder : Z) (x : list F) (f : Z) : option (list F) :=
  let sub := tns_sub dt bw in
  let nsub := 2 + b2z (DT_7M5 <=? dt) in
  do c0 <- sub_corr sub nsub maxorder x f 0;
  do c1 <- sub_corr sub nsub maxorder x f 1;
  do c2 <- (if nsub =? 2 then Some [] else sub_corr sub nsub maxorder x f 2);
  do r <- wr (repeat junk 9) 0 (f_z fl nsub);
  do e0 <- rd c0 0;
  do e1 <- rd c1 0;
  do e2 <- (if nsub =? 2 then Some e0 else rd c2 0);
  for_ 1 (maxorder + 1) (fun k r =>
    do v0 <- rd c0 k; do v1 <- rd c1 k;
    do v2 <- (if nsub =? 2 then Some v0 else rd c2 k);
    do w <- rd tns_lag_window k;
    wr r k
      (if f_eq fl e0 f0 || f_eq fl e1 f0 || (negb (nsub =? 2) && f_eq fl e2 f0) then f0
       else f_mul fl (let t := f_add fl (f_div fl v0 e0) (f_div fl v1 e1) in
                     if nsub =? 2 then t else f_add fl t (f_div fl v2 e2)) (f_dy fl w 24))) r.

(** src/tns.c lines 166-175 (and 177-186): a step of the Levinson-Durbin recursion, from
    the coefficients [src] of the order [k - 1] to those of the order [k] in [dst]. *)
Definition levinson_step (r src dst : list F) (k : Z) (err : F) : option (list F * F) :=
  do rk <- rd r k;
  do rc <- for_ 1 k (fun i rc => do a <- rd src i; do v <- rd r (k - i); Some (f_sub fl rc (f_mul fl a v))) (f_opp fl rk);
  let rc := f_div fl rc err in
  let err := f_mul fl err (f_sub fl (f_z fl 1) (f_mul fl rc rc)) in
  do dst <- for_ 1 k (fun i dst => do a <- rd src i; do b <- rd src (k - i); wr dst i (f_add fl a (f_mul fl rc b))) dst;
  do dst <- wr dst k rc;
  Some (dst, err).

(** src/tns.c lines 157-190: the recursion for a filter; coefficients and gain. The loops
    on the filters of lines 130-153 and 157-190 are one here, the filters do not interact. *)
Definition levinson (maxorder : Z) (r : list F) : option (list F * F) :=
  do err <- rd r 0;
  do a0 <- wr (repeat junk 9) 0 (f_z fl 1);
  do st <- for_ 0 (maxorder / 2) (fun p '(a0, a1, e) =>
    do s <- levinson_step r a0 a1 (2 * p + 1) e;
    let '(a1, e) := s in
    do s <- levinson_step r a1 a0 (2 * p + 2) e;
    let '(a0, e) := s in
    Some (a0, a1, e)) (a0, repeat junk 9, err);
  let '(a0, _, e) := st in
  Some (a0, f_div fl err e).

(** src/tns.c lines 197-204: lpc_weighting; the constants are 0.85f, 1.5f and 2.f. *)
Definition lpc_weighting (pred_gain : F) (a : list F) : option (list F) :=
  let one := f_z fl 1 in
  let gamma := f_sub fl one (f_div fl (f_mul fl (f_sub fl one (f_dy fl 14260634 24)) (f_sub fl (f_z fl 2) pred_gain))
                              (f_sub fl (f_z fl 2) (f_dy fl 3 1))) in
  do s <- for_ 1 9 (fun i '(a, g) =>
    let g := f_mul fl g gamma in
    do v <- rd a i; do a <- wr a i (f_mul fl v g); Some (a, g)) (a, one);
  Some (fst s).

(** src/tns.c lines 211-234: lpc_reflection; the two rows of the local array b are in turn b0
    and b1. The final [rc[0] = b1[0]] is in the last line. *)
Definition lpc_reflection (a : list F) (maxorder : Z) : option (list F) :=
  let one := f_z fl 1 in
  do am <- rd a maxorder;
  do rc <- wr (repeat junk 8) (maxorder - 1) am;
  let e := f_sub fl one (f_mul fl am am) in
  do b1 <- for_ 0 (maxorder - 1) (fun i b =>
    do x <- rd a (1 + i); do y <- rd a (maxorder - 1 - i);
    wr b i (f_div fl (f_sub fl x (f_mul fl am y)) e)) (repeat junk 7);
  do st <- for_down (maxorder - 2) 1 (fun k '(rc, b0, b1) =>
    (* b0 = b1, b1 = the other row *)
    let '(b0, b1) := (b1, b0) in
    do rk <- rd b0 k;
    do rc <- wr rc k rk;
    let e := f_sub fl one (f_mul fl rk rk) in
    do b1 <- for_ 0 k (fun i b1 =>
      do x <- rd b0 i; do y <- rd b0 (k - 1 - i);
      wr b1 i (f_div fl (f_sub fl x (f_mul fl rk y)) e)) b1;
    Some (rc, b0, b1)) (rc, repeat junk 7, b1);
  let '(rc, _, b1) := st in
  do r0 <- rd b1 0;
  wr rc 0 r0.

(** src/tns.c lines 257-258: quantized magnitude. *)
Definition rc_ge (m : F) (j : Z) : option bool := do t <- rd tns_q_thr j; Some (f_le fl (f_dy fl t 15) m).
Fixpoint rc_search (n : nat) (m : F) (q : Z) : option Z :=
  match n with
  | O => Some q
  | S n => do b <- rc_ge m q; if (b : bool) then rc_search n m (q + 1) else Some q
  end.
Definition quantize_rc1 (v : F) : option Z :=
  let m := f_abs fl v in
  do b <- rc_ge m 4;
  do q <- rc_search 4 m (4 * b2z b);
  Some (if f_lt fl v f0 then - q else q).

(** src/tns.c lines 242-265: quantize_rc; order, and the [maxorder] coefficients. *)
Definition quantize_rc (rc : list F) (maxorder : Z) : option (Z * list Z) :=
  for_ 0 maxorder (fun i '(order, rc_q) =>
    do v <- rd rc i;
    do q <- quantize_rc1 v;
    Some (if q =? 0 then order - 1 else maxorder, rc_q ++ [q])) (maxorder, []).

(** src/tns.c lines 272-289: unquantize_rc, in [rc]. *)
Definition unquantize_rc (rc_q : list Z) (order : Z) (rc : list F) : option (list F) :=
  for_ 0 order (fun i rc =>
    do q <- rd rc_q i;
    do t <- rd tns_q_inv (Z.abs q);
    let m := f_dy fl t 15 in
    wr rc i (if q <? 0 then f_opp fl m else m)) rc.

(** src/tns.c lines 305-307 and 347-349: length of a filter. *)
Definition tns_nf (dt bw : Z) : Z := c_ne dt (Z.min bw SRATE_48K) / 2 ^ (Z.of_nat (tns_nfilters dt bw) - 1).

(** src/tns.c lines 324-330: the stages of the forward filter on a coefficient. *)
Definition forward_stage (rc : list F) (k : Z) (st : list F * F * F) : option (list F * F * F) :=
  let '(s, s1, xi) := st in
  do s0 <- rd s k;
  do s <- wr s k s1;
  do r <- rd rc k;
  Some (s, f_add fl (f_mul fl r xi) s0, f_add fl xi (f_mul fl r s0)).

(** src/tns.c lines 320-333: a coefficient. *)
Definition forward_coeff (order : Z) (rc : list F) (i : Z) (st : list F * list F) : option (list F * list F) :=
  let '(s, x) := st in
  do xi <- rd x i;
  do t <- for_ 0 order (forward_stage rc) (s, xi, xi);
  let '(s, _, xi) := t in
  do x <- wr x i xi;
  Some (s, x).

(** src/tns.c lines 301-335: forward_filtering; [filters] are the pairs of [rc_order] and [rc]. *)
Definition forward_filtering (dt bw : Z) (filters : list (Z * list F)) (x : list F) : option (list F) :=
  let nf := tns_nf dt bw in
  do st <- for_ 0 (Z.of_nat (tns_nfilters dt bw)) (fun f '(s, x) =>
    do p <- rd filters f;
    let '(order, rc) := p in
    if order =? 0 then Some (s, x)
    else for_ (if f =? 0 then 3 * (1 + dt) else nf * f) (nf * (1 + f)) (forward_coeff order rc) (s, x))
    (repeat f0 8, x);
  Some (snd st).

(** src/tns.c lines 366-369: the stages of the inverse filter. *)
Definition inverse_stage (rc : list F) (k : Z) (st : list F * F) : option (list F * F) :=
  let '(s, xi) := st in
  do sk <- rd s k;
  do r <- rd rc k;
  let xi := f_sub fl xi (f_mul fl sk r) in
  do s <- wr s (k + 1) (f_add fl sk (f_mul fl r xi));
  Some (s, xi).

(** src/tns.c lines 362-372: a coefficient. *)
Definition inverse_coeff (rc : list F) (i : Z) (st : list F * list F) : option (list F * list F) :=
  let '(s, x) := st in
  do xi <- rd x i;
  do s7 <- rd s 7;
  do r7 <- rd rc 7;
  let xi := f_sub fl xi (f_mul fl s7 r7) in
  do t <- for_down 6 0 (inverse_stage rc) (s, xi);
  let '(s, xi) := t in
  do s <- wr s 0 xi;
  do x <- wr x i xi;
  Some (s, x).

(** src/tns.c lines 343-377: inverse_filtering. *)
Definition inverse_filtering (dt bw : Z) (filters : list (Z * list F)) (x : list F) : option (list F) :=
  let nf := tns_nf dt bw in
  do st <- for_ 0 (Z.of_nat (tns_nfilters dt bw)) (fun f '(s, x) =>
    do p <- rd filters f;
    let '(order, rc) := p in
    if order =? 0 then Some (s, x)
    else
      do st <- for_ (if f =? 0 then 3 * (1 + dt) else nf * f) (nf * (1 + f)) (inverse_coeff rc) (s, x);
      let '(s, x) := st in
      do s <- for_down 7 order (fun k s => wr s k f0) s;
      Some (s, x))
    (repeat f0 8, x);
  Some (snd st).

(** src/tns.c lines 406-419: a filter of the analysis; order, quantized coefficients
    ([order] of them are used), coefficients of the filter. *)
Definition tns_analyze_filter (dt bw nbytes : Z) (nn_flag : bool) (x : list F) (f : Z) : option (list Z * list F) :=
  let maxorder := if dt <=? DT_5M then 4 else 8 in
  do r <- autocorr dt bw maxorder x f;
  do l <- levinson maxorder r;
  let '(a, gain) := l in
  if nn_flag || f_le fl gain (f_dy fl 3 1) then Some ([], repeat junk 8)
  else
    do a <- (if resolve_lpc_weighting dt nbytes && f_lt fl gain (f_z fl 2) then lpc_weighting gain a else Some a);
    do rc <- lpc_reflection a maxorder;
    do q <- quantize_rc rc maxorder;
    let '(order, rc_q) := q in
    do rc <- unquantize_rc rc_q order rc;
    Some (firstn (Z.to_nat order) rc_q, rc).

(** src/tns.c lines 387-422: lc3_tns_analyze. *)
Definition tns_analyze (dt bw : Z) (nn_flag : bool) (nbytes : Z) (x : list F) : option (tns_data * list F) :=
  do p0 <- tns_analyze_filter dt bw nbytes nn_flag x 0;
  do ps <- (if Nat.eqb (tns_nfilters dt bw) 2 then do p1 <- tns_analyze_filter dt bw nbytes nn_flag x 1; Some [p0; p1]
            else Some [p0]);
  do y <- forward_filtering dt bw (map (fun p => (zlen (fst p), snd p)) ps) x;
  Some (mkTns (resolve_lpc_weighting dt nbytes) (map fst ps), y).

(** src/tns.c lines 427-437: lc3_tns_synthesize. *)
Definition tns_synthesize (dt bw : Z) (d : tns_data) (x : list F) : option (list F) :=
  do fs <- for_ 0 (zlen (t_filters d)) (fun f fs =>
    do q <- rd (t_filters d) f;
    do rc <- unquantize_rc q (zlen q) (repeat f0 8);
    Some (fs ++ [(zlen q, rc)])) [];
  inverse_filtering dt bw fs x.

End Tns.
