(** * Spectral noise shaping: src/sns.c, on abstract floats
    The expressions are evaluated in the order of the source, each operation in single
    precision. *)
From Coq Require Import ZArith List Bool.
From Verif Require Import Base ConfigModel SideModel ShapeTables FloatOps BandModel PvqModel.
Import ListNotations.
Local Open Scope Z_scope.

Section Sns.
Context {F : Type} (fl : fops F).
(** Content of the arrays that are not initialised. *)
Variable junk : F.

Local Notation "x +. y" := (f_add fl x y) (at level 50, left associativity).
Local Notation "x -. y" := (f_sub fl x y) (at level 50, left associativity).
Local Notation "x *. y" := (f_mul fl x y) (at level 40, left associativity).
Local Notation "x /. y" := (f_div fl x y) (at level 40, left associativity).
Local Notation fz := (f_z fl).
Local Notation dy := (f_dy fl).

(** src/sns.c lines 123-128: dct16_forward, [m[j][i]] times 2^28. *)
Definition dct16_forward (x : list F) : option (list F) :=
  for_ 0 16 (fun i y =>
    do v <- for_ 0 16 (fun j v => do xj <- rd x j; do r <- rd dct16_m j; do m <- rd r i; Some (v +. xj *. dy m 28)) (fz 0);
    Some (y ++ [v])) [].

(** src/sns.c lines 134-139: dct16_inverse. *)
Definition dct16_inverse (x : list F) : option (list F) :=
  for_ 0 16 (fun i y =>
    do v <- for_ 0 16 (fun j v => do xj <- rd x j; do r <- rd dct16_m i; do m <- rd r j; Some (v +. xj *. dy m 28)) (fz 0);
    Some (y ++ [v])) [].

(** src/sns.c lines 273-282: ge_table. *)
Definition ge_of (sr : Z) : list Z := znth [ge_14; ge_18; ge_22; ge_26; ge_30; ge_30; ge_34] sr [].

(** src/sns.c lines 289-290 and 741-742: n4 and n2. *)
Definition pad_n4 (nb : Z) : Z := if nb <? 32 then 32 mod nb else 0.
Definition pad_n2 (nb : Z) : Z := if nb <? 32 then nb - pad_n4 nb else MAX_BANDS - nb.

(** src/sns.c lines 284-299: copy and padding to 64 bands. *)
Definition pad_bands (nb : Z) (eb : list F) : option (list F) :=
  let n4 := pad_n4 nb in
  let n2 := pad_n2 nb in
  do e <- for_ 0 n4 (fun i e =>
    do v <- rd eb i;
    do e <- wr e (4 * i + 3) v; do e <- wr e (4 * i + 2) v; do e <- wr e (4 * i + 1) v; wr e (4 * i) v) (repeat junk 64);
  do e <- for_ n4 (n4 + n2) (fun i e =>
    do v <- rd eb i; do e <- wr e (2 * (n4 + i) + 1) v; wr e (2 * (n4 + i)) v) e;
  for_ 0 (nb - n4 - n2) (fun i e => do v <- rd eb (n4 + n2 + i); wr e (4 * n4 + 2 * n2 + i) v) e.

(** src/sns.c lines 309-316: one of the three steps, on e[i]; gives e[i+1] too. *)
Definition smooth_step (ge : list Z) (i : Z) (a b : F) (e : list F) (sum : F) : option (F * list F * F) :=
  do c <- rd e (i + 1);
  do g <- rd ge i;
  let v := (a *. dy 1 2 +. b *. dy 1 1 +. c *. dy 1 2) *. dy g 23 in
  do e <- wr e i v;
  Some (c, e, sum +. v).

(** src/sns.c lines 301-325: smoothing, pre-emphasis and logarithm; 1e-4f / 64 is
    13743895 / 2^43. *)
Definition smooth_log (sr : Z) (e : list F) : option (list F) :=
  let ge := ge_of sr in
  do e0 <- rd e 0;
  do st <- for_ 0 21 (fun t '(e0, e1, e, sum) =>
    let i := 3 * t in
    do r <- smooth_step ge i e0 e1 e sum; let '(e2, e, sum) := r in
    do r <- smooth_step ge (i + 1) e1 e2 e sum; let '(e0, e, sum) := r in
    do r <- smooth_step ge (i + 2) e2 e0 e sum; let '(e1, e, sum) := r in
    Some (e0, e1, e, sum)) (e0, e0, e, fz 0);
  let '(e0, e1, e, sum) := st in
  do g <- rd ge 63;
  let v := (e0 *. dy 1 2 +. e1 *. dy 3 2) *. dy g 23 in
  do e <- wr e 63 v;
  let sum := sum +. v in
  let noise_floor := f_max fl (sum *. dy 13743895 43) (dy 1 32) in
  for_ 0 64 (fun i e => do v <- rd e i; wr e i (f_log2 fl (f_max fl v noise_floor) *. dy 1 1)) e.

(** src/sns.c lines 331-345: a scale factor out of six bands. *)
Definition group6 (e : list F) (a b c d f g : Z) : option F :=
  do a <- rd e a; do b <- rd e b; do c <- rd e c; do d <- rd e d; do f <- rd e f; do g <- rd e g;
  Some ((a +. b) *. fz 1 /. fz 12 +. (c +. d) *. fz 2 /. fz 12 +. (f +. g) *. fz 3 /. fz 12).

(** src/sns.c lines 327-346: grouping, and sum of the scale factors. *)
Definition group_bands (e : list F) : option (list F * F) :=
  do v <- group6 e 0 4 0 3 1 2;
  do st <- for_ 1 15 (fun i '(scf, sum) =>
    do v <- group6 e (4 * i - 1) (4 * i + 4) (4 * i) (4 * i + 3) (4 * i + 1) (4 * i + 2);
    Some (scf ++ [v], sum +. v)) ([v], v);
  let '(scf, sum) := st in
  do v <- group6 e 59 63 60 63 61 62;
  Some (scf ++ [v], sum +. v).

(** src/sns.c lines 348-351: scaling; 0.6f, 0.85f, 0.25f and 0.35f. *)
Definition scale_cf (dt sr nbytes : Z) : F :=
  let cf := if is_hr sr then dy 5033165 23 else dy 7130317 23 in
  if is_hr sr && ((if dt <? 3 then 1150 * (1 + dt) else 4400) <? 8 * nbytes)
  then cf *. (if dt <? 3 then dy 1 2 else dy 11744051 25) else cf.

(** src/sns.c lines 353-354 and 378-380. *)
Definition center (k : F) (scf : list F) (sum : F) : option (list F) :=
  for_ 0 16 (fun i scf => do v <- rd scf i; wr scf i (k *. (v -. sum *. fz 1 /. fz 16))) scf.

(** src/sns.c lines 356-380: attack handling; 0.3f or 0.5f. *)
Definition attack (dt : Z) (scf : list F) : option (list F) :=
  do s1 <- rd scf 0; do s2 <- rd scf 1; do s3 <- rd scf 2; do s4 <- rd scf 3;
  let sn := s1 +. s2 in
  let sn := sn +. s3 in
  do scf <- wr scf 0 (sn *. fz 1 /. fz 3);
  let v0 := sn *. fz 1 /. fz 3 in
  let sn := sn +. s4 in
  let v1 := sn *. fz 1 /. fz 4 in
  do scf <- wr scf 1 v1;
  do st <- for_ 2 14 (fun i '(scf, (s1, s2, s3, s4), sn, sum) =>
    let s0 := s1 in let s1 := s2 in let s2 := s3 in let s3 := s4 in
    do s4 <- rd scf (i + 2);
    let sn := sn +. s4 in
    let v := sn *. fz 1 /. fz 5 in
    do scf <- wr scf i v;
    Some (scf, (s1, s2, s3, s4), sn -. s0, sum +. v)) (scf, (s1, s2, s3, s4), sn, v0 +. v1);
  let '(scf, (s1, _, _, _), sn, sum) := st in
  let v14 := sn *. fz 1 /. fz 4 in
  do scf <- wr scf 14 v14;
  let sn := sn -. s1 in
  let v15 := sn *. fz 1 /. fz 3 in
  do scf <- wr scf 15 v15;
  center (if dt =? 2 then dy 5033165 24 else dy 1 1) scf (sum +. (v14 +. v15)).

(** src/sns.c lines 154-381: compute_scale_factors. *)
Definition compute_scale_factors (dt sr nbytes : Z) (eb : list F) (att : bool) : option (list F) :=
  do e <- pad_bands (num_bands dt sr) eb;
  do e <- smooth_log sr e;
  do r <- group_bands e;
  do scf <- center (scale_cf dt sr nbytes) (fst r) (snd r);
  if att then attack dt scf else Some scf.

(** src/sns.c lines 397-402: distance to a vector of a codebook (values times 2^32), from
    scale factor [o]. *)
Definition cb_dist (scf : list F) (cb : list Z) (o : Z) : option F :=
  for_ 0 8 (fun i d => do s <- rd scf (o + i); do c <- rd cb i; Some (d +. (s -. dy c 32) *. (s -. dy c 32))) (fz 0).

(** src/sns.c lines 388-410: resolve_codebooks; the two searches are independent. *)
Definition resolve_cb (cbs : list (list Z)) (scf : list F) (o : Z) : option Z :=
  do st <- for_ 0 32 (fun icb '(idx, dmax) =>
    do cb <- rd cbs icb;
    do d <- cb_dist scf cb o;
    Some (if (icb =? 0) || f_lt fl d dmax then (icb, d) else (idx, dmax))) (0, fz 0);
  Some (fst st).

(** src/sns.c lines 417-427: normalize. *)
Definition normalize (c : list Z) : option (list F) :=
  do c2 <- for_ 0 16 (fun i s => do v <- rd c i; Some (s + v * v)) 0;
  let c_norm := fz 1 /. f_sqrt fl (fz c2) in
  for_ 0 16 (fun i cn => do v <- rd c i; Some (cn ++ [fz v *. c_norm])) [].

(** src/sns.c lines 439-449: best position for a pulse, from [o]. *)
Definition best_pulse (x : list F) (y : list Z) (o n : Z) (corr energy : F) : option Z :=
  do x0 <- rd x o; do y0 <- rd y o;
  do st <- for_ 1 n (fun i '(bc, be, nb) =>
    do xi <- rd x (o + i); do yi <- rd y (o + i);
    let c2 := (corr +. xi) *. (corr +. xi) in
    let e := energy +. fz (2 * yi) +. fz 1 in
    Some (if f_lt fl (e *. bc) (c2 *. be) then (c2, e, i) else (bc, be, nb)))
    ((corr +. x0) *. (corr +. x0), energy +. fz (2 * y0) +. fz 1, 0);
  Some (snd st).

(** src/sns.c lines 435-455: add_pulse, on the n elements of x and y from [o]. *)
Definition add_pulse (x : list F) (o n start end_ : Z) (st : list Z * F * F) : option (list Z * F * F) :=
  for_ start end_ (fun _ '(y, corr, energy) =>
    do nb <- best_pulse x y o n corr energy;
    do xb <- rd x (o + nb); do yb <- rd y (o + nb);
    do y <- wr y (o + nb) (yb + 1);
    Some (y, corr +. xb, energy +. fz (2 * yb + 1))) st.

(** src/sns.c lines 469-476: residual. *)
Definition residual (scf : list F) (lf hf : list Z) : option (list F) :=
  do a <- for_ 0 8 (fun i r => do s <- rd scf i; do c <- rd lf i; Some (r ++ [s -. dy c 32])) [];
  for_ 0 8 (fun i r => do s <- rd scf (8 + i); do c <- rd hf i; Some (r ++ [s -. dy c 32])) a.

(** src/sns.c lines 484-490. *)
Definition magnitudes (x : list F) : option (list F * F) :=
  for_ 0 16 (fun i '(xm, sum) => do v <- rd x i; Some (xm ++ [f_abs fl v], sum +. f_abs fl v)) ([], fz 0).

(** src/sns.c lines 492-501: projection to the pyramid; 1e-31f. [None] when a
    conversion to int is out of range. *)
Definition project (xm : list F) (xm_sum : F) : option (list Z * Z * F * F) :=
  let pf := fz 5 /. f_max fl xm_sum (dy 8507059 126) in
  for_ 0 16 (fun i '(c, np, corr, energy) =>
    do v <- rd xm i;
    do k <- f_floor fl (v *. pf);
    Some (c ++ [k], np + k, corr +. fz k *. v, energy +. fz (k * k))) ([], 0, fz 0, fz 0).

(** src/sns.c lines 519-526: the pulses out of the ten first are removed. *)
Definition remove_high (xm : list F) (c2 : list Z) (corr energy : F) : option (list Z * Z * F * F) :=
  for_ 10 16 (fun i '(c, np, corr, energy) =>
    do k <- rd c2 i; do v <- rd xm i;
    do c <- wr c i 0;
    Some (c, np - k, corr -. fz k *. v, energy -. fz (k * k))) (c2, 8, corr, energy).

(** src/sns.c lines 492-536: the four configurations, without the signs. *)
Definition configurations (xm : list F) (xm_sum : F) : option (list (list Z)) :=
  do r <- project xm xm_sum;
  let '(c, np, corr, energy) := r in
  do r <- add_pulse xm 0 16 np 6 (c, corr, energy);
  let '(c3, corr, energy) := r in
  do r <- add_pulse xm 0 16 6 8 (c3, corr, energy);
  let '(c2, corr, energy) := r in
  do r <- remove_high xm c2 corr energy;
  let '(c, np, corr, energy) := r in
  do r <- add_pulse xm 0 10 np 10 (c, corr, energy);
  let '(c1, corr, energy) := r in
  do r <- add_pulse xm 10 6 0 1 (c1, corr, energy);
  let '(c0, _, _) := r in
  Some [c0; c1; c2; c3].

(** src/sns.c lines 540-542: signs. *)
Definition signs (x : list F) (c : list Z) : option (list Z) :=
  for_ 0 16 (fun j c => do v <- rd x j; do k <- rd c j; wr c j (if f_lt fl v (fz 0) then - k else k)) c.

(** src/sns.c lines 561-563: mean square error. *)
Definition mse (x : list F) (cn : list F) (g : F) : option F :=
  for_ 0 16 (fun i m => do v <- rd x i; do c <- rd cn i; Some (m +. (v -. g *. c) *. (v -. g *. c))) (fz 0).

(** src/sns.c lines 550-575: shape and gain; FLT_MAX. *)
Definition shape_gain (x : list F) (cns : list (list F)) : option (Z * Z) :=
  let flt_max := dy 16777215 (-104) in
  do st <- for_ 0 4 (fun ic '(shape, gain, m_min) =>
    do gains <- rd sns_vq_gains ic;
    do cn <- rd cns ic;
    do r <- for_ 0 (fst gains) (fun ig '(cg, cm) =>
      do g <- rd (snd gains) ig;
      do m <- mse x cn (dy g 12);
      Some (if f_lt fl m cm then (ig, m) else (cg, cm))) (0, flt_max);
    let '(cg, cm) := r in
    Some (if f_lt fl cm m_min then (ic, cg, cm) else (shape, gain, m_min))) (0, 0, flt_max);
  let '(shape, gain, _) := st in
  Some (shape, gain).

(** src/sns.c lines 464-576: quantize; the pulses of the 4 shapes, normalized, shape and gain. *)
Definition quantize (scf : list F) (lf hf : Z) : option (list (list Z) * list (list F) * Z * Z) :=
  do lfcb <- rd sns_lfcb lf;
  do hfcb <- rd sns_hfcb hf;
  do r <- residual scf lfcb hfcb;
  do x <- dct16_forward r;
  do m <- magnitudes x;
  do cs <- configurations (fst m) (snd m);
  do cs <- for_ 0 4 (fun i l => do c <- rd cs i; do c <- signs x c; Some (l ++ [c])) [];
  do cns <- for_ 0 4 (fun i l => do c <- rd cs i; do cn <- normalize c; Some (l ++ [cn])) [];
  do sg <- shape_gain x cns;
  Some (cs, cns, fst sg, snd sg).

(** src/sns.c lines 585-599: unquantize. *)
Definition unquantize (lf hf : Z) (cn : list F) (shape gain : Z) : option (list F) :=
  do lfcb <- rd sns_lfcb lf;
  do hfcb <- rd sns_hfcb hf;
  do gains <- rd sns_vq_gains shape;
  do g <- rd (snd gains) gain;
  do scf <- dct16_inverse cn;
  do scf <- for_ 0 8 (fun i scf => do c <- rd lfcb i; do v <- rd scf i; wr scf i (dy c 32 +. dy g 12 *. v)) scf;
  for_ 8 16 (fun i scf => do c <- rd hfcb (i - 8); do v <- rd scf i; wr scf i (dy c 32 +. dy g 12 *. v)) scf.

(** src/sns.c lines 724-738: interpolation of the scale factors to 64 bands. *)
Definition interpolate (scf_q : list F) (inv : bool) : option (list F) :=
  let sg v := if inv then f_opp fl v else v in
  do q0 <- rd scf_q 0;
  let s1 := sg q0 in
  do scf <- wr (repeat junk 64) 1 s1;
  do scf <- wr scf 0 s1;
  do st <- for_ 0 15 (fun i '(scf, _, s1) =>
    let s0 := s1 in
    do q <- rd scf_q (i + 1);
    let s1 := sg q in
    do scf <- wr scf (4 * i + 2) (s0 +. dy 1 3 *. (s1 -. s0));
    do scf <- wr scf (4 * i + 3) (s0 +. dy 3 3 *. (s1 -. s0));
    do scf <- wr scf (4 * i + 4) (s0 +. dy 5 3 *. (s1 -. s0));
    do scf <- wr scf (4 * i + 5) (s0 +. dy 7 3 *. (s1 -. s0));
    Some (scf, s0, s1)) (scf, s1, s1);
  let '(scf, s0, s1) := st in
  do scf <- wr scf 62 (s1 +. dy 1 3 *. (s1 -. s0));
  wr scf 63 (s1 +. dy 3 3 *. (s1 -. s0)).

(** src/sns.c lines 740-751: from 64 bands to the ones of the frame. *)
Definition fold_bands (nb : Z) (scf : list F) : option (list F) :=
  let n4 := pad_n4 nb in
  let n2 := pad_n2 nb in
  do scf <- for_ 0 n4 (fun i scf =>
    do a <- rd scf (4 * i); do b <- rd scf (4 * i + 1); do c <- rd scf (4 * i + 2); do d <- rd scf (4 * i + 3);
    wr scf i (dy 1 2 *. (a +. b +. c +. d))) scf;
  do scf <- for_ n4 (n4 + n2) (fun i scf =>
    do a <- rd scf (2 * (n4 + i)); do b <- rd scf (2 * (n4 + i) + 1);
    wr scf i (dy 1 1 *. (a +. b))) scf;
  for_ 0 (nb - n4 - n2) (fun i scf => do v <- rd scf (4 * n4 + 2 * n2 + i); wr scf (n4 + n2 + i) v) scf.

(** src/sns.c lines 753-765: the coefficients of each band are scaled. *)
Definition shape_bands (dt sr : Z) (scf : list F) (x y : list F) : option (list F) :=
  do st <- for_ 0 (num_bands dt sr) (fun ib '(i, y) =>
    do s <- rd scf ib;
    let g := f_exp2 fl (f_opp fl s) in
    do hi <- rd (lim_of dt sr) (ib + 1);
    do y <- for_ i hi (fun i y => do v <- rd x i; wr y i (v *. g)) y;
    Some (Z.max i hi, y)) (0, y);
  Some (snd st).

(** src/sns.c lines 721-765: spectral_shaping. x and y can be the same buffer: y[i] is
    written once, after the read of x[i]. *)
Definition spectral_shaping (dt sr : Z) (scf_q : list F) (inv : bool) (x y : list F) : option (list F) :=
  do scf <- interpolate scf_q inv;
  do scf <- fold_bands (num_bands dt sr) scf;
  shape_bands dt sr scf x y.

(** src/sns.c lines 773-800: lc3_sns_analyze: data, scale factors of the encoder (not
    returned by the code) and spectrum. idx_b is left as it was (0) but for shape 0. *)
Definition sns_analyze (dt sr nbytes : Z) (eb : list F) (att : bool) (x y : list F) : option (sns_data * list F * list F) :=
  do scf <- compute_scale_factors dt sr nbytes eb att;
  do lf <- resolve_cb sns_lfcb scf 0;
  do hf <- resolve_cb sns_hfcb scf 8;
  do q <- quantize scf lf hf;
  let '(cs, cns, shape, gain) := q in
  do cn <- rd cns shape;
  do scf <- unquantize lf hf cn shape gain;
  do c <- rd cs shape;
  do en <- enumerate shape c;
  let '((ia, la), ob) := en in
  let '(ib, lb) := match ob with Some p => p | None => (0, false) end in
  do y <- spectral_shaping dt sr scf false x y;
  Some (mkSns lf hf shape gain ia (b2z la) ib (b2z lb), scf, y).

(** src/sns.c lines 807-822: lc3_sns_synthesize: scale factors of the decoder and spectrum. *)
Definition sns_synthesize (dt sr : Z) (d : sns_data) (x y : list F) : option (list F * list F) :=
  do c <- deenumerate (s_shape d) (s_idx_a d) (s_ls_a d =? 1) (s_idx_b d) (s_ls_b d =? 1);
  do cn <- normalize c;
  do scf <- unquantize (s_lfcb d) (s_hfcb d) cn (s_shape d) (s_gain d);
  do y <- spectral_shaping dt sr scf true x y;
  Some (scf, y).

End Sns.
