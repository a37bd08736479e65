(** * Bounds on binary32 computations *)
From Coq Require Import ZArith Reals Bool List Lia Lra.
From Flocq Require Import Core.Core IEEE754.BinarySingleNaN Plus_error Relative.
From Verif Require Import FloatOps FloatLaws F32Model.
Import ListNotations.
Local Open Scope R_scope.

Notation p2 := (bpow radix2).
Notation fexp32 := (SpecFloat.fexp 24 128).
Notation rnd32 := (round radix2 fexp32 ZnearestE).
Notation fmt := (generic_format radix2 fexp32).
(** The value; 0 for the infinities and the NaN. *)
Definition val (x : f32) : R := B2R x.
Definition fin (x : f32) : Prop := is_finite x = true.

#[global] Instance vexp32 : Valid_exp fexp32 := fexp_correct 24 128 prec24.
#[global] Instance mexp32 : Monotone_exp fexp32 := FLT_exp_monotone (-149) 24.

Lemma fmt_val x : fmt (val x). Proof. apply generic_format_B2R. Qed.

Lemma fmt_Zp m e : (Z.abs m <= 2 ^ 24)%Z -> (-149 <= e)%Z -> fmt (IZR m * p2 e).
Proof.
  intros Hm He. change (IZR m * p2 e) with (F2R (Float radix2 m e)). destruct (Z.eq_dec (Z.abs m) (2 ^ 24)) as [E|N].
  - assert (A : F2R (Float radix2 m e) = F2R (Float radix2 (Z.sgn m) (e + 24))).
    { unfold F2R. cbn [Fnum Fexp]. rewrite bpow_plus. change (p2 24) with (IZR (2 ^ 24)). rewrite <- E.
      rewrite (Rmult_comm (p2 e)), <- Rmult_assoc, <- mult_IZR. f_equal. f_equal. rewrite Z.mul_comm. symmetry. apply Z.abs_sgn. }
    rewrite A. apply generic_format_FLT. exists (Float radix2 (Z.sgn m) (e + 24)); cbn [Fnum Fexp]; [reflexivity| |unfold SpecFloat.emin; lia].
    change (radix2 ^ 24)%Z with 16777216%Z. lia.
  - apply generic_format_FLT. exists (Float radix2 m e); cbn [Fnum Fexp]; [reflexivity| |unfold SpecFloat.emin; lia]. change (radix2 ^ 24)%Z with 16777216%Z. change (2 ^ 24)%Z with 16777216%Z in *. lia.
Qed.

(** Finite, at most k 2^e in magnitude. *)
Definition bnd (k e : Z) (x : f32) : Prop := fin x /\ Rabs (val x) <= IZR k * p2 e.

Lemma kok_lt k e : kok k e -> IZR k * p2 e < p2 128.
Proof.
  intros ((H0 & Hk) & He). apply Rle_lt_trans with (p2 24 * p2 e).
  - apply Rmult_le_compat_r; [apply bpow_ge_0|]. change (p2 24) with (IZR (2 ^ 24)). apply IZR_le, Hk.
  - rewrite <- bpow_plus. apply bpow_lt. lia.
Qed.

Lemma rnd_bnd r k e : kok k e -> Rabs r <= IZR k * p2 e -> Rabs (rnd32 r) <= IZR k * p2 e /\ Rabs (rnd32 r) < p2 128.
Proof.
  intros K H. assert (A : Rabs (rnd32 r) <= IZR k * p2 e).
  { apply abs_round_le_generic; [apply vexp32|apply valid_rnd_N| |exact H]. destruct K as (Hk & He). apply fmt_Zp; lia. }
  split; [exact A|]. eapply Rle_lt_trans; [exact A|]. apply kok_lt, K.
Qed.

Ltac no_overflow C H := rewrite Rlt_bool_true in C by (cbn [round_mode]; exact H); cbn [round_mode] in C.

Lemma add_val x y : fin x -> fin y -> Rabs (rnd32 (val x + val y)) < p2 128 -> fin (Add x y) /\ val (Add x y) = rnd32 (val x + val y).
Proof. intros Fx Fy H. pose proof (Bplus_correct 24 128 _ _ mode_NE x y Fx Fy) as C. no_overflow C H. destruct C as (C1 & C2 & _). auto. Qed.
Lemma sub_val x y : fin x -> fin y -> Rabs (rnd32 (val x - val y)) < p2 128 -> fin (Sub x y) /\ val (Sub x y) = rnd32 (val x - val y).
Proof. intros Fx Fy H. pose proof (Bminus_correct 24 128 _ _ mode_NE x y Fx Fy) as C. no_overflow C H. destruct C as (C1 & C2 & _). auto. Qed.
Lemma mul_val x y : fin x -> fin y -> Rabs (rnd32 (val x * val y)) < p2 128 -> fin (Mul x y) /\ val (Mul x y) = rnd32 (val x * val y).
Proof. intros Fx Fy H. pose proof (Bmult_correct 24 128 _ _ mode_NE x y) as C. no_overflow C H. destruct C as (C1 & C2 & _). unfold fin in *. rewrite Fx, Fy in C2. auto. Qed.
Lemma div_val x y : fin x -> val y <> 0 -> Rabs (rnd32 (val x / val y)) < p2 128 -> fin (Div x y) /\ val (Div x y) = rnd32 (val x / val y).
Proof. intros Fx Fy H. pose proof (Bdiv_correct 24 128 _ _ mode_NE x y Fy) as C. no_overflow C H. destruct C as (C1 & C2 & _). unfold fin in *. rewrite Fx in C2. auto. Qed.
Lemma dy_val m k : Rabs (rnd32 (IZR m * p2 (- k))) < p2 128 -> fin (f32_dy m k) /\ val (f32_dy m k) = rnd32 (IZR m * p2 (- k)).
Proof.
  intros H. pose proof (binary_normalize_correct 24 128 _ _ mode_NE m (- k) false) as C. cbv zeta in C. unfold F2R in C. cbn [Fnum Fexp] in C.
  no_overflow C H. destruct C as (C1 & C2 & _). auto.
Qed.

Lemma bnd_weak k e k' e' x : bnd k e x -> IZR k * p2 e <= IZR k' * p2 e' -> bnd k' e' x.
Proof. intros (F & H) L. split; [exact F|lra]. Qed.

Lemma bnd_add k1 k2 e x y : kok (k1 + k2) e -> bnd k1 e x -> bnd k2 e y -> bnd (k1 + k2) e (Add x y).
Proof.
  intros K (Fx & Hx) (Fy & Hy). assert (A : Rabs (val x + val y) <= IZR (k1 + k2) * p2 e).
  { eapply Rle_trans; [apply Rabs_triang|]. rewrite plus_IZR. lra. }
  destruct (rnd_bnd _ _ _ K A) as (B & C). destruct (add_val x y Fx Fy C) as (D & E). split; [exact D|]. rewrite E. exact B.
Qed.
Lemma bnd_sub k1 k2 e x y : kok (k1 + k2) e -> bnd k1 e x -> bnd k2 e y -> bnd (k1 + k2) e (Sub x y).
Proof.
  intros K (Fx & Hx) (Fy & Hy). assert (A : Rabs (val x - val y) <= IZR (k1 + k2) * p2 e).
  { unfold Rminus. eapply Rle_trans; [apply Rabs_triang|]. rewrite Rabs_Ropp, plus_IZR. lra. }
  destruct (rnd_bnd _ _ _ K A) as (B & C). destruct (sub_val x y Fx Fy C) as (D & E). split; [exact D|]. rewrite E. exact B.
Qed.
Lemma bnd_mul k1 k2 e1 e2 x y : kok (k1 * k2) (e1 + e2) -> bnd k1 e1 x -> bnd k2 e2 y -> bnd (k1 * k2) (e1 + e2) (Mul x y).
Proof.
  intros K (Fx & Hx) (Fy & Hy). assert (A : Rabs (val x * val y) <= IZR (k1 * k2) * p2 (e1 + e2)).
  { rewrite Rabs_mult, mult_IZR, bpow_plus. replace (IZR k1 * IZR k2 * (p2 e1 * p2 e2)) with ((IZR k1 * p2 e1) * (IZR k2 * p2 e2)) by ring.
    apply Rmult_le_compat; auto using Rabs_pos. }
  destruct (rnd_bnd _ _ _ K A) as (B & C). destruct (mul_val x y Fx Fy C) as (D & E). split; [exact D|]. rewrite E. exact B.
Qed.
(** Division by a number of at least 1. *)
Lemma bnd_div k e x y : kok k e -> bnd k e x -> 1 <= val y -> bnd k e (Div x y).
Proof.
  intros K (Fx & Hx) Hy. assert (A : Rabs (val x / val y) <= IZR k * p2 e).
  { unfold Rdiv. rewrite Rabs_mult, (Rabs_pos_eq (/ val y)) by (left; apply Rinv_0_lt_compat; lra).
    apply Rle_trans with (Rabs (val x) * 1); [|lra]. apply Rmult_le_compat_l; [apply Rabs_pos|]. rewrite <- Rinv_1. apply Rinv_le; lra. }
  destruct (rnd_bnd _ _ _ K A) as (B & C). destruct (div_val x y Fx ltac:(lra) C) as (D & E). split; [exact D|]. rewrite E. exact B.
Qed.
Lemma bnd_abs k e x : bnd k e x -> bnd k e (Babs x).
Proof. intros (F & H). split; [unfold fin; rewrite is_finite_Babs; exact F|]. unfold val. rewrite B2R_Babs, Rabs_Rabsolu. exact H. Qed.
Lemma bnd_dy m s k e : kok k e -> Rabs (IZR m * p2 (- s)) <= IZR k * p2 e -> bnd k e (f32_dy m s).
Proof. intros K H. destruct (rnd_bnd _ _ _ K H) as (B & C). destruct (dy_val m s C) as (D & E). split; [exact D|]. rewrite E. exact B. Qed.

(** Powers of 2. *)
Definition pb (e : Z) (x : f32) : Prop := bnd 1 e x.
Lemma kok1 e : eok e -> kok 1 e. Proof. unfold eok, kok. lia. Qed.

Lemma pb_le e e' x : pb e x -> (e <= e')%Z -> pb e' x.
Proof. intros H L. apply (bnd_weak 1 e 1 e' x H). rewrite !Rmult_1_l. apply bpow_le, L. Qed.
Lemma pb_bnd2 e x : bnd 2 e x -> pb (e + 1) x.
Proof. intros H. apply (bnd_weak 2 e 1 (e + 1) x H). rewrite bpow_plus_1. change (IZR radix2) with 2. lra. Qed.
Lemma pb_add e x y : eok e -> pb e x -> pb e y -> pb (e + 1) (Add x y).
Proof. intros K Hx Hy. apply pb_bnd2. apply (bnd_add 1 1 e); auto. unfold eok, kok in *. lia. Qed.
Lemma pb_sub e x y : eok e -> pb e x -> pb e y -> pb (e + 1) (Sub x y).
Proof. intros K Hx Hy. apply pb_bnd2. apply (bnd_sub 1 1 e); auto. unfold eok, kok in *. lia. Qed.
Lemma pb_mul e1 e2 x y : eok (e1 + e2) -> pb e1 x -> pb e2 y -> pb (e1 + e2) (Mul x y).
Proof. intros K Hx Hy. apply (bnd_mul 1 1 e1 e2); auto. unfold eok, kok in *. lia. Qed.
Lemma pb_dy m s n : eok (n - s) -> (0 <= n)%Z -> (Z.abs m <= 2 ^ n)%Z -> pb (n - s) (f32_dy m s).
Proof.
  intros K Hn H. apply bnd_dy; [apply kok1, K|]. rewrite Rmult_1_l, Rabs_mult, (Rabs_pos_eq (p2 (- s))) by apply bpow_ge_0. unfold Zminus. rewrite bpow_plus.
  apply Rmult_le_compat_r; [apply bpow_ge_0|]. rewrite <- abs_IZR, <- IZR_Zpower by exact Hn. apply IZR_le. exact H.
Qed.

(** Small integers are exact. *)
Lemma dy_exact m s : (Z.abs m <= 2 ^ 24)%Z -> (-100 <= s <= 149)%Z -> fin (f32_dy m s) /\ val (f32_dy m s) = IZR m * p2 (- s).
Proof.
  intros Hm Hs. assert (F : fmt (IZR m * p2 (- s))) by (apply fmt_Zp; lia). assert (R : rnd32 (IZR m * p2 (- s)) = IZR m * p2 (- s)) by (apply round_generic; [apply valid_rnd_N|exact F]).
  destruct (dy_val m s) as (A & B).
  - rewrite R, Rabs_mult, (Rabs_pos_eq (p2 (- s))), <- abs_IZR by apply bpow_ge_0. apply kok_lt. unfold kok. lia.
  - rewrite R in B. auto.
Qed.

(** The fraction of lc3_frexpf is at most 1, whatever the bits. *)
Lemma frexp_frac nan x : pb 0 (fst (frexp32 nan x)).
Proof.
  unfold frexp32. cbv zeta. cbn [fst]. set (u := f32_bits nan x). unfold f32_of_bits.
  assert (E : ((u - u / 2 ^ 23 mod 256 * 2 ^ 23 + 126 * 2 ^ 23) / 2 ^ 23 mod 256 = 126)%Z).
  { replace (u - u / 2 ^ 23 mod 256 * 2 ^ 23 + 126 * 2 ^ 23)%Z with (u + (126 - u / 2 ^ 23 mod 256) * 2 ^ 23)%Z by ring. rewrite Z.div_add by (intro H; discriminate H).
    generalize (u / 2 ^ 23)%Z. intros v. rewrite (Z.div_mod v 256) at 1 by lia. replace (256 * (v / 256) + v mod 256 + (126 - v mod 256))%Z with (126 + (v / 256) * 256)%Z by ring. rewrite Z.mod_add by lia. reflexivity. }
  rewrite E. cbv zeta. cbn [Z.eqb Pos.eqb]. set (w := (u - _ + _)%Z). clearbody w. clear E.
  assert (M : (0 <= w mod 2 ^ 23 < 2 ^ 23)%Z) by (apply Z.mod_pos_bound; reflexivity). set (m := (w mod 2 ^ 23)%Z) in *. clearbody m.
  change (126 - 150)%Z with (-24)%Z.
  assert (G : forall s z, (Z.abs z <= 2 ^ 24)%Z -> pb 0 (binary_normalize 24 128 _ _ mode_NE z (-24) s)).
  { intros s z Hz. pose proof (binary_normalize_correct 24 128 _ _ mode_NE z (-24) s) as C. cbv zeta in C. unfold F2R in C. cbn [Fnum Fexp] in C.
    assert (A : Rabs (IZR z * p2 (-24)) <= IZR 1 * p2 0).
    { rewrite Rabs_mult, (Rabs_pos_eq (p2 (-24))) by apply bpow_ge_0. rewrite <- abs_IZR, Rmult_1_l. replace (p2 0) with (p2 24 * p2 (-24)) by (rewrite <- bpow_plus; reflexivity).
      apply Rmult_le_compat_r; [apply bpow_ge_0|]. change (p2 24) with (IZR (2 ^ 24)). apply IZR_le, Hz. }
    destruct (rnd_bnd _ 1 0 ltac:(unfold kok; lia) A) as (B & D). no_overflow C D. destruct C as (C1 & C2 & _). split; [exact C2|]. unfold val. rewrite C1. exact B. }
  apply G. change (2 ^ 24)%Z with 16777216%Z in *. change (2 ^ 23)%Z with 8388608%Z in *. destruct (2 ^ 31 <=? w)%Z; lia.
Qed.

Lemma frexp_exp nan x : (-126 <= snd (frexp32 nan x) <= 129)%Z.
Proof. unfold frexp32. cbv zeta. cbn [snd]. pose proof (Z.mod_pos_bound (f32_bits nan x / 2 ^ 23) 256 ltac:(reflexivity)). lia. Qed.

Ltac eok := unfold eok; lia.
(** The logarithm is finite and below 512 for every number, the infinities and the NaN too. *)
Lemma log2_bnd nan x : pb 9 (log2_32 nan x).
Proof.
  unfold log2_32. pose proof (frexp_frac nan x) as Hx. pose proof (frexp_exp nan x) as He. destruct (frexp32 nan x) as (v & e). cbn [fst snd] in *. cbv zeta.
  assert (H1 : pb 1 (Mul (f32_dy (-10861543) 23) v)).
  { apply (pb_mul 1 0); [eok| |exact Hx]. apply (pb_dy _ 23 24); [eok|lia|lia]. }
  set (y1 := Mul _ v) in *. clearbody y1.
  assert (H2 : pb 4 (Mul (Add y1 (f32_dy 5366287 20)) v)).
  { apply (pb_mul 4 0); [eok| |exact Hx]. apply (pb_add 3); [eok|eapply pb_le; [exact H1|lia]|]. apply (pb_dy _ 20 23); [eok|lia|lia]. }
  set (y2 := Mul _ v) in *. clearbody y2.
  assert (H3 : pb 5 (Mul (Add y2 (f32_dy (-4416053) 19)) v)).
  { apply (pb_mul 5 0); [eok| |exact Hx]. apply (pb_add 4); [eok|eapply pb_le; [exact H2|lia]|]. apply (pb_dy _ 19 23); [eok|lia|lia]. }
  set (y3 := Mul _ v) in *. clearbody y3.
  assert (H4 : pb 6 (Mul (Add y3 (f32_dy 2124829 18)) v)).
  { apply (pb_mul 6 0); [eok| |exact Hx]. apply (pb_add 5); [eok|eapply pb_le; [exact H3|lia]|]. eapply pb_le; [apply (pb_dy _ 18 23); [eok|lia|lia]|lia]. }
  set (y4 := Mul _ v) in *. clearbody y4.
  assert (H5 : pb 7 (Add y4 (f32_dy (-14703861) 22))).
  { apply (pb_add 6); [eok|eapply pb_le; [exact H4|lia]|]. eapply pb_le; [apply (pb_dy _ 22 24); [eok|lia|lia]|lia]. }
  apply (pb_add 8); [eok| |eapply pb_le; [exact H5|lia]]. apply (pb_dy _ 0 8); [eok|lia|]. change (2 ^ 8)%Z with 256%Z. lia.
Qed.

Lemma f32_laws nan : blaws (f32_ops nan) bnd.
Proof.
  constructor.
  - intros k e k' d x Hd Hk H B. apply (bnd_weak k e _ _ _ B). rewrite (Z.add_comm e d), bpow_plus, <- Rmult_assoc. apply Rmult_le_compat_r; [apply bpow_ge_0|].
    rewrite <- IZR_Zpower by exact Hd. rewrite <- mult_IZR. apply IZR_le. exact H.
  - exact bnd_add.
  - exact bnd_sub.
  - exact bnd_mul.
  - intros k e x n K Hn B. apply bnd_div; [exact K|exact B|]. change (f_z (f32_ops nan) n) with (f32_dy n 0). destruct (dy_exact n 0) as (_ & ->); [lia|lia|].
    change (p2 (- 0)) with 1%R. rewrite Rmult_1_r. apply IZR_le. lia.
  - exact bnd_abs.
  - exact pb_dy.
  - intros e. split; [reflexivity|]. change (val (f_z (f32_ops nan) 0)) with 0%R. rewrite Rabs_R0, Rmult_0_l. apply Rle_refl.
  - exact (log2_bnd nan).
Qed.
