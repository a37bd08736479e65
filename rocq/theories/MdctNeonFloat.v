(** * NEON transforms in binary32: bounds of the values, null signals *)
From Coq Require Import Reals ZArith List Bool Lia Lra ZifyBool.
From Flocq Require Import Core.Core IEEE754.BinarySingleNaN.
From Verif Require Import Base BaseProofs ConfigModel FloatLaws MdctModel MdctTables MdctTwiddles MdctProofs MdctFft MdctStream MdctWindows MdctGrade MdctNeonModel MdctNeonGrade MdctNeonF32Model FloatOps F32Model F32Proofs MdctFloat.
Import ListNotations.
Local Open Scope Z_scope.

Lemma fma_val a b c : fin a -> fin b -> fin c -> (Rabs (rnd32 (val b * val c + val a)) < p2 128)%R -> fin (Fma a b c) /\ val (Fma a b c) = rnd32 (val b * val c + val a).
Proof.
  intros Fa Fb Fc H. pose proof (Bfma_correct 24 128 _ _ mode_NE b c a Fb Fc Fa) as C. cbv zeta in C.
  destruct (Rlt_bool_spec (Rabs (round radix2 (SpecFloat.fexp 24 128) (round_mode mode_NE) (B2R b * B2R c + B2R a))) (bpow radix2 128)) as [L|L]; [|exfalso; apply (Rlt_irrefl (p2 128)); eapply Rle_lt_trans; [exact L|exact H]].
  destruct C as (C1 & C2 & _). split; [exact C2|exact C1].
Qed.
Lemma pb_fma k a b c : eok (k + 1) -> pb k a -> pb k b -> pb 0 c -> pb (k + 1) (Fma a b c).
Proof.
  intros K (Fa & Ha) (Fb & Hb) (Fc & Hc). rewrite Rmult_1_l in Ha, Hb, Hc. change (p2 0) with 1%R in Hc.
  assert (A : (Rabs (val b * val c + val a) <= 1 * p2 (k + 1))%R).
  { eapply Rle_trans; [apply Rabs_triang|]. rewrite Rabs_mult, bpow_plus_1. change (IZR radix2) with 2%R.
    assert (Rabs (val b) * Rabs (val c) <= p2 k * 1)%R by (apply Rmult_le_compat; try apply Rabs_pos; assumption). lra. }
  destruct (rnd_bnd _ 1 (k + 1) (kok1 _ K) A) as (B & C). destruct (fma_val a b c Fa Fb Fc C) as (D & E). split; [exact D|]. rewrite E. exact B.
Qed.
Lemma pb_fms k a b c : eok (k + 1) -> pb k a -> pb k b -> pb 0 c -> pb (k + 1) (Fms a b c).
Proof. intros K Ha Hb Hc. apply (pb_fma k a (Bopp b) c K Ha (opp_pb k b Hb) Hc). Qed.
Lemma zero_fma a b c : zero32 a -> zero32 b -> fin c -> zero32 (Fma a b c).
Proof. intros (s & ->) (t & ->) F. destruct c as [u| | |u m e Hm]; try discriminate F; destruct s, t, u; eexists; reflexivity. Qed.
Lemma zero_fms a b c : zero32 a -> zero32 b -> fin c -> zero32 (Fms a b c).
Proof. intros Ha Hb F. apply (zero_fma a (Bopp b) c Ha (zero_opp b Hb) F). Qed.

Section Float.
Context (nan : Z) (junk : f32).
Variable P : Z -> f32 -> Prop.
Hypothesis P_mono : forall k k' x, P k x -> k <= k' -> P k' x.
Hypothesis P_add : forall k x y, 0 <= k <= 90 -> P k x -> P k y -> P (k + 1) (Add x y).
Hypothesis P_sub : forall k x y, 0 <= k <= 90 -> P k x -> P k y -> P (k + 1) (Sub x y).
Hypothesis P_opp : forall k x, P k x -> P k (Bopp x).
Hypothesis P_mul : forall k e x w, 0 <= k <= 90 -> 0 <= e <= 2 -> P k x -> pb e w -> P (k + e) (Mul x w).
Hypothesis P_fma : forall k x y w, 0 <= k <= 90 -> P k x -> P k y -> pb 0 w -> P (k + 1) (Fma x y w).
Hypothesis P_fms : forall k x y w, 0 <= k <= 90 -> P k x -> P k y -> pb 0 w -> P (k + 1) (Fms x y w).
Let P_mul0 k x w : 0 <= k <= 90 -> P k x -> pb 0 w -> P k (Mul x w).
Proof. intros Hk Hx Hw. replace k with (k + 0) by lia. apply P_mul; auto; lia. Qed.
Let P_mul1 k x w : 0 <= k <= 90 -> P k x -> pb 1 w -> P (k + 1) (Mul x w).
Proof. intros Hk Hx Hw. apply P_mul; auto; lia. Qed.
Let P_mul2 k x w : 0 <= k <= 90 -> P k x -> pb 2 w -> P (k + 2) (Mul x w).
Proof. intros Hk Hx Hw. apply P_mul; auto; lia. Qed.

(** Forward transform of the encoder. *)
Lemma neon_forward_values dt sr srp k x d y : has_transform dt srp -> 0 <= sr <= srp -> 0 <= k <= 40 ->
  Forall (P k) x -> Forall (P k) d -> zlen x = c_ns dt srp -> zlen d = c_nd dt srp -> zlen y = c_ns dt srp -> 0 <= c_ns dt sr <= c_ns dt srp -> c_ns dt sr mod 4 = 0 ->
  exists d' y', neon_forward nan junk dt srp sr x d y = Some (d', y') /\ zlen d' = c_nd dt srp /\ zlen y' = c_ns dt srp /\ Forall (P k) d' /\ Forall (P (k + 23)) y'.
Proof.
  intros Hc Hs Hk Hx Hd Lx Ld Ly H0 H4. pose proof Hc as (C1 & C2 & _). pose proof (ns_max dt srp Hc) as Hm. assert (Lb : zlen (repeat junk (Z.to_nat MAX_NS)) = MAX_NS) by (unfold zlen; rewrite repeat_length; reflexivity).
  destruct (neon_forward_grade (f32_dy 0 0) Add Sub Mul (@Bopp 24 128) Fma Fms P (pb 0) (pb 1) (pb 2) P_mono P_add P_sub P_opp P_mul0 P_mul1 P_mul2 (opp_pb 0) P_fma P_fms
    (code_fft c80) (code_rot c80 dt srp) (code_win c47 dt srp) dt srp (c_ns dt sr) (ratio (c_ns dt sr) (c_ns dt srp)) k x d y (repeat junk (Z.to_nat MAX_NS)))
    as (d' & y' & E & L1 & L2 & Vd & Vy); try lia; try assumption.
  - apply shapes_f32, Hc.
  - exact code_fft_good.
  - apply code_rot_good, Hc.
  - apply code_win_good, Hc.
  - intros _. apply ratio_down; lia.
  - intros q Hq. apply at_Forall; [exact Hx|lia].
  - intros q Hq. apply at_Forall; [exact Hd|lia].
  - exists d', y'. split; [exact E|]. split; [lia|]. split; [lia|]. split; [apply (Forall_at _ d' (c_nd dt srp))|apply (Forall_at _ y' (c_ns dt srp))]; auto; lia.
Qed.

(** Inverse transform of the decoder. *)
Lemma neon_inverse_values dt sr srp k d y : has_transform dt srp -> 0 <= sr <= srp -> 0 <= k <= 40 ->
  Forall (P k) y -> Forall (P (k + 24)) d -> zlen d = c_nd dt srp -> zlen y = c_ns dt srp ->
  exists d' y', neon_inverse nan junk dt srp sr None d y = Some (d', y') /\ zlen d' = c_nd dt srp /\ zlen y' = c_ns dt srp /\ Forall (P (k + 24)) d' /\ Forall (P (k + 25)) y'.
Proof.
  intros Hc Hs Hk Hx Hd Ld Ly. pose proof Hc as (C1 & C2 & _). pose proof (ns_max dt srp Hc) as Hm. assert (Lb : zlen (repeat junk (Z.to_nat MAX_NS)) = MAX_NS) by (unfold zlen; rewrite repeat_length; reflexivity).
  destruct (neon_inverse_grade (f32_dy 0 0) Add Sub Mul (@Bopp 24 128) Fma Fms P (pb 0) (pb 1) (pb 2) P_mono P_add P_sub P_opp P_mul0 P_mul1 P_mul2 (opp_pb 0) P_fma P_fms
    (code_fft c80) (code_rot c80 dt srp) (code_win c47 dt srp) dt srp (c_ns dt sr) (ratio (c_ns dt srp) (c_ns dt sr)) k None d y (repeat junk (Z.to_nat MAX_NS)))
    as (d' & y' & E & L1 & L2 & Vd & Vy); try (cbn [inp]; lia); try assumption.
  - apply shapes_f32, Hc.
  - exact code_fft_good.
  - apply code_rot_good, Hc.
  - apply code_win_good, Hc.
  - intros _. apply ratio_down; lia.
  - intros q Hq. cbn [inp]. apply at_Forall; [exact Hx|lia].
  - intros q Hq. apply at_Forall; [exact Hd|lia].
  - exists d', y'. split; [exact E|]. split; [lia|]. split; [lia|]. split; [apply (Forall_at _ d' (c_nd dt srp))|apply (Forall_at _ y' (c_ns dt srp))]; auto; lia.
Qed.
End Float.

(** ** The two uses *)
Lemma pb_grade_fma k x y w : 0 <= k <= 90 -> pb k x -> pb k y -> pb 0 w -> pb (k + 1) (Fma x y w). Proof. intros. apply pb_fma; auto. unfold eok. lia. Qed.
Lemma pb_grade_fms k x y w : 0 <= k <= 90 -> pb k x -> pb k y -> pb 0 w -> pb (k + 1) (Fms x y w). Proof. intros. apply pb_fms; auto. unfold eok. lia. Qed.
Definition neon_forward_bound nan junk := neon_forward_values nan junk pb (fun k k' x H L => pb_le k k' x H L) pb_grade_add pb_grade_sub opp_pb pb_grade_mul pb_grade_fma pb_grade_fms.
Definition neon_inverse_bound nan junk := neon_inverse_values nan junk pb (fun k k' x H L => pb_le k k' x H L) pb_grade_add pb_grade_sub opp_pb pb_grade_mul pb_grade_fma pb_grade_fms.
Definition neon_forward_zero nan junk := neon_forward_values nan junk (fun _ => zero32) (fun k k' x H L => H) (fun k x y _ => zero_add x y) (fun k x y _ => zero_sub x y) (fun k x => zero_opp x)
  (fun k e x w _ _ Hx Hw => zero_mul x w Hx (proj1 Hw)) (fun k x y w _ Hx Hy Hw => zero_fma x y w Hx Hy (proj1 Hw)) (fun k x y w _ Hx Hy Hw => zero_fms x y w Hx Hy (proj1 Hw)).
Definition neon_inverse_zero nan junk := neon_inverse_values nan junk (fun _ => zero32) (fun k k' x H L => H) (fun k x y _ => zero_add x y) (fun k x y _ => zero_sub x y) (fun k x => zero_opp x)
  (fun k e x w _ _ Hx Hw => zero_mul x w Hx (proj1 Hw)) (fun k x y w _ Hx Hy Hw => zero_fma x y w Hx Hy (proj1 Hw)) (fun k x y w _ Hx Hy Hw => zero_fms x y w Hx Hy (proj1 Hw)).
