(** * The fast mathematical functions of the code, in binary32 *)
From Coq Require Import Reals ZArith List Bool Lia Lra Psatz.
From Flocq Require Import Core.Core IEEE754.BinarySingleNaN.
From Verif Require Import Base FloatOps FloatLaws F32Model F32Proofs GainModel GainProofs SpecEncModel SpecEncFloat FastReal.
Import ListNotations.
Local Open Scope R_scope.

(** ** The bits of a normal number *)
Lemma bits_normal nan (x : f32) : fin x -> p2 (-126) <= val x ->
  exists E f, (1 <= E <= 254)%Z /\ (0 <= f < 2 ^ 23)%Z /\ f32_bits nan x = (E * 2 ^ 23 + f)%Z /\ val x = (1 + IZR f / 2 ^ 23) * p2 (E - 127).
Proof.
  intros F L. assert (P : 0 < p2 (-126)) by apply bpow_gt_0. destruct x as [s|s| |s m e Hb]; try discriminate F.
  - change (val (B754_zero s)) with 0 in L. lra.
  - destruct s; [exfalso; unfold val in L; cbn [B2R] in L; assert (F2R (Float radix2 (cond_Zopp true (Z.pos m)) e) < 0) by (apply F2R_lt_0; reflexivity); lra|].
    assert (B : (Z.pos m < 2 ^ 24)%Z /\ (-149 <= e)%Z /\ (e <= 104)%Z).
    { pose proof Hb as Hb2. unfold SpecFloat.bounded in Hb2. apply andb_prop in Hb2. destruct Hb2 as (C & D). apply Z.leb_le in D.
      unfold SpecFloat.canonical_mantissa, SpecFloat.fexp, SpecFloat.emin in C. apply Zeq_bool_eq in C. rewrite Digits.Zpos_digits2_pos in C.
      change (3 - 128 - 24)%Z with (-149)%Z in C. split; [|lia]. apply (Digits.Zpower_gt_Zdigits radix2 24 (Z.pos m)). lia. }
    destruct B as (B1 & B2 & B3). unfold val in L |- *. cbn [B2R] in L |- *. unfold F2R in *. cbn [Fnum Fexp cond_Zopp] in *.
    assert (M : (2 ^ 23 <= Z.pos m)%Z).
    { destruct (Z_lt_le_dec (Z.pos m) (2 ^ 23)) as [C|C]; [exfalso|exact C].
      assert (e = -149)%Z.
      { pose proof Hb as Hb2. unfold SpecFloat.bounded in Hb2. apply andb_prop in Hb2. destruct Hb2 as (D & _). unfold SpecFloat.canonical_mantissa, SpecFloat.fexp, SpecFloat.emin in D. apply Zeq_bool_eq in D. rewrite Digits.Zpos_digits2_pos in D.
        pose proof (Digits.Zdigits_le_Zpower radix2 23 (Z.pos m) C). change (3 - 128 - 24)%Z with (-149)%Z in D. lia. }
      subst e. assert (IZR (Z.pos m) < p2 23). { change (p2 23) with (IZR (Zpower 2 23)). apply IZR_lt. exact C. }
      assert (IZR (Z.pos m) * p2 (-149) < p2 23 * p2 (-149)) by (apply Rmult_lt_compat_r; [apply bpow_gt_0|assumption]). rewrite <- bpow_plus in H0. change (23 + -149)%Z with (-126)%Z in H0. lra. }
    exists (e + 150)%Z, (Z.pos m - 2 ^ 23)%Z. split; [lia|]. split; [lia|]. split.
    + cbn [f32_bits]. destruct (Z.ltb_spec (Z.pos m) (2 ^ 23)); [lia|]. lia.
    + replace (e + 150 - 127)%Z with (23 + e)%Z by lia. rewrite bpow_plus, minus_IZR. change (IZR (2 ^ 23)) with 8388608. change (p2 23) with 8388608. field.
Qed.
Lemma bits_inv E f : (1 <= E <= 250)%Z -> (0 <= f < 2 ^ 23)%Z -> fin (f32_of_bits (E * 2 ^ 23 + f)) /\ val (f32_of_bits (E * 2 ^ 23 + f)) = (1 + IZR f / 2 ^ 23) * p2 (E - 127).
Proof.
  intros HE Hf. unfold f32_of_bits. cbv zeta.
  replace ((E * 2 ^ 23 + f) / 2 ^ 23 mod 256)%Z with E by (rewrite Z.div_add_l, Z.div_small, Z.add_0_r, Z.mod_small by lia; reflexivity).
  replace ((E * 2 ^ 23 + f) mod 2 ^ 23)%Z with f by (rewrite Z.add_comm, Z.mod_add, Z.mod_small by lia; reflexivity).
  destruct (Z.eqb_spec E 255); [lia|]. destruct (Z.eqb_spec E 0); [lia|]. destruct (Z.leb_spec (2 ^ 31) (E * 2 ^ 23 + f)); [lia|].
  replace (E - 150)%Z with (- (150 - E))%Z by lia. change (binary_normalize 24 128 _ _ mode_NE (2 ^ 23 + f) (- (150 - E)) false) with (f32_dy (2 ^ 23 + f) (150 - E)).
  destruct (dy_exact (2 ^ 23 + f) (150 - E)) as (A & B); try lia. split; [exact A|]. rewrite B.
  replace (E - 127)%Z with (23 + (- (150 - E)))%Z by lia. rewrite bpow_plus, plus_IZR. change (IZR (2 ^ 23)) with 8388608. change (p2 23) with 8388608. field.
Qed.

(** ** lc3_frexpf *)
Lemma frexp_normal nan (x : f32) : fin x -> p2 (-126) <= val x ->
  fin (fst (frexp32 nan x)) /\ / 2 <= val (fst (frexp32 nan x)) < 1 /\ (-125 <= snd (frexp32 nan x) <= 128)%Z /\
  val x = val (fst (frexp32 nan x)) * p2 (snd (frexp32 nan x)).
Proof.
  intros F L. destruct (bits_normal nan x F L) as (E & f & HE & Hf & Eb & Ev). unfold frexp32. cbv zeta. cbn [fst snd]. rewrite Eb.
  replace ((E * 2 ^ 23 + f) / 2 ^ 23 mod 256)%Z with E by (rewrite Z.div_add_l, Z.div_small, Z.add_0_r, Z.mod_small by lia; reflexivity).
  replace (E * 2 ^ 23 + f - E * 2 ^ 23 + 126 * 2 ^ 23)%Z with (126 * 2 ^ 23 + f)%Z by lia. destruct (bits_inv 126 f ltac:(lia) Hf) as (A & B).
  rewrite B. change (p2 (126 - 127)) with (/ 2). assert (0 <= IZR f) by (apply IZR_le; lia). assert (IZR f <= 8388607) by (apply IZR_le; lia).
  split; [exact A|]. split; [lra|]. split; [lia|]. rewrite Ev. replace (E - 127)%Z with (-1 + (E - 126))%Z by lia. rewrite bpow_plus. change (p2 (-1)) with (/ 2). ring.
Qed.

(** ** Errors, absolute *)
Lemma rnd_near r B : Rabs r <= B -> B <= p2 60 -> Rabs (rnd32 r) < p2 128 /\ Rabs (rnd32 r - r) <= B * / 16000000 + / 1000000000000.
Proof.
  intros H L. assert (A : Rabs r <= IZR 1 * p2 60) by lra. destruct (rnd_bnd _ _ _ (kok1 60 ltac:(unfold eok; lia)) A) as (_ & C). split; [exact C|].
  eapply Rle_trans; [apply rnd_err|]. pose proof ru_b as U. pose proof rt_small as (_ & T). pose proof p2_100 as T2. assert (ru * Rabs r <= / 16000000 * B) by (apply Rmult_le_compat; [lra|apply Rabs_pos|lra|exact H]). lra.
Qed.
Lemma add_near x y X Y ex ey B e : fin x -> fin y -> Rabs (val x - X) <= ex -> Rabs (val y - Y) <= ey -> Rabs (X + Y) <= B -> B + ex + ey <= p2 60 ->
  ex + ey + (B + ex + ey) * / 16000000 + / 1000000000000 <= e -> fin (Add x y) /\ Rabs (val (Add x y) - (X + Y)) <= e.
Proof.
  intros Fx Fy Hx Hy HB L He. assert (D : Rabs (val x + val y - (X + Y)) <= ex + ey). { replace (val x + val y - (X + Y)) with ((val x - X) + (val y - Y)) by ring. eapply Rle_trans; [apply Rabs_triang|lra]. }
  assert (A : Rabs (val x + val y) <= B + ex + ey). { replace (val x + val y) with ((X + Y) + (val x + val y - (X + Y))) by ring. eapply Rle_trans; [apply Rabs_triang|lra]. }
  destruct (rnd_near _ _ A L) as (R1 & R2). destruct (add_val x y Fx Fy R1) as (F & V). split; [exact F|]. rewrite V.
  replace (rnd32 (val x + val y) - (X + Y)) with ((rnd32 (val x + val y) - (val x + val y)) + (val x + val y - (X + Y))) by ring. eapply Rle_trans; [apply Rabs_triang|lra].
Qed.
Lemma mul_near x y X Y ex ey A C e : fin x -> fin y -> Rabs (val x - X) <= ex -> Rabs (val y - Y) <= ey -> Rabs X <= A -> Rabs Y <= C -> (A + ex) * (C + ey) <= p2 60 ->
  A * ey + C * ex + ex * ey + ((A + ex) * (C + ey)) * / 16000000 + / 1000000000000 <= e -> fin (Mul x y) /\ Rabs (val (Mul x y) - X * Y) <= e.
Proof.
  intros Fx Fy Hx Hy HA HC L He. set (dx := val x - X) in *. set (dy := val y - Y) in *. assert (Ex : val x = X + dx) by (unfold dx; ring). assert (Ey : val y = Y + dy) by (unfold dy; ring).
  pose proof (Rabs_pos X). pose proof (Rabs_pos Y). pose proof (Rabs_pos dx). pose proof (Rabs_pos dy).
  assert (D : Rabs (val x * val y - X * Y) <= A * ey + C * ex + ex * ey).
  { rewrite Ex, Ey. replace ((X + dx) * (Y + dy) - X * Y) with (X * dy + dx * Y + dx * dy) by ring. eapply Rle_trans; [apply Rabs_triang|]. apply Rplus_le_compat; [eapply Rle_trans; [apply Rabs_triang|]; apply Rplus_le_compat|]; rewrite Rabs_mult.
    - apply Rmult_le_compat; assumption. - rewrite Rmult_comm. apply Rmult_le_compat; assumption. - apply Rmult_le_compat; assumption. }
  assert (AA : Rabs (val x * val y) <= (A + ex) * (C + ey)).
  { rewrite Rabs_mult. apply Rmult_le_compat; try apply Rabs_pos; [rewrite Ex|rewrite Ey]; (eapply Rle_trans; [apply Rabs_triang|lra]). }
  destruct (rnd_near _ _ AA L) as (R1 & R2). destruct (mul_val x y Fx Fy R1) as (F & V). split; [exact F|]. rewrite V.
  replace (rnd32 (val x * val y) - (X * Y)) with ((rnd32 (val x * val y) - (val x * val y)) + (val x * val y - (X * Y))) by ring. eapply Rle_trans; [apply Rabs_triang|lra].
Qed.
Lemma dy_near m s X : (Z.abs m <= 2 ^ 24)%Z -> (-100 <= s <= 149)%Z -> IZR m * p2 (- s) = X -> fin (f32_dy m s) /\ Rabs (val (f32_dy m s) - X) <= 0.
Proof. intros H1 H2 <-. destruct (dy_exact m s H1 H2) as (F & V). split; [exact F|]. rewrite V, Rminus_diag_eq, Rabs_R0 by reflexivity. lra. Qed.

(** ** lc3_log2f *)
Lemma log2_near nan (x : f32) : fin x -> p2 (-126) <= val x -> fin (log2_32 nan x) /\ Rabs (val (log2_32 nan x) - ln (val x) / ln 2) <= 0.0002.
Proof.
  intros F L. destruct (frexp_normal nan x F L) as (Fm & Bm & Be & Ev). unfold log2_32. destruct (frexp32 nan x) as (v & e). cbn [fst snd] in *. cbv zeta.
  set (m := val v) in *. assert (Hm : Rabs (val v - m) <= 0) by (unfold m; rewrite Rminus_diag_eq, Rabs_R0 by reflexivity; lra). assert (Am : Rabs m <= 1) by (rewrite Rabs_pos_eq; lra).
  assert (P60 : 1000000 <= p2 60) by (apply Rle_trans with (p2 20); [cbn; lra|apply bpow_le; lia]).
  destruct (dy_near (-10861543) 23 (IZR (-21723086) / 2 ^ 24) ltac:(lia) ltac:(lia) ltac:(cbn; lra)) as (F0 & C0).
  destruct (mul_near _ v (IZR (-21723086) / 2 ^ 24) m 0 0 1.3 1 0.0000001 F0 Fm C0 Hm ltac:(apply Rabs_le; lra) Am ltac:(lra) ltac:(lra)) as (F1 & C1). clear F0 C0.
  destruct (dy_near 5366287 20 (IZR 85860592 / 2 ^ 24) ltac:(lia) ltac:(lia) ltac:(cbn; lra)) as (F0 & C0).
  destruct (add_near _ _ _ _ _ _ 4.5 0.0000004 F1 F0 C1 C0 ltac:(apply Rabs_le; lra) ltac:(lra) ltac:(lra)) as (F2 & C2). clear F0 C0 F1 C1.
  destruct (mul_near _ v _ m _ 0 4.5 1 0.0000007 F2 Fm C2 Hm ltac:(apply Rabs_le; lra) Am ltac:(lra) ltac:(lra)) as (F1 & C1). clear F2 C2.
  assert (B1 : 1.8 <= (IZR (-21723086) / 2 ^ 24 * m + IZR 85860592 / 2 ^ 24) * m <= 4.5) by (split; nra).
  destruct (dy_near (-4416053) 19 (IZR (-141313696) / 2 ^ 24) ltac:(lia) ltac:(lia) ltac:(cbn; lra)) as (F0 & C0).
  destruct (add_near _ _ _ _ _ _ 6.7 0.0000012 F1 F0 C1 C0 ltac:(apply Rabs_le; lra) ltac:(lra) ltac:(lra)) as (F2 & C2). clear F0 C0 F1 C1.
  set (X := (IZR (-21723086) / 2 ^ 24 * m + IZR 85860592 / 2 ^ 24) * m) in *.
  destruct (mul_near _ v _ m _ 0 6.7 1 0.0000017 F2 Fm C2 Hm ltac:(apply Rabs_le; lra) Am ltac:(lra) ltac:(lra)) as (F1 & C1). clear F2 C2.
  assert (B2 : -6.7 <= (X + IZR (-141313696) / 2 ^ 24) * m <= -1.9) by (clearbody X; split; nra).
  destruct (dy_near 2124829 18 (IZR 135989056 / 2 ^ 24) ltac:(lia) ltac:(lia) ltac:(cbn; lra)) as (F0 & C0).
  destruct (add_near _ _ _ _ _ _ 6.3 0.0000022 F1 F0 C1 C0 ltac:(apply Rabs_le; lra) ltac:(lra) ltac:(lra)) as (F2 & C2). clear F0 C0 F1 C1.
  set (X2 := (X + IZR (-141313696) / 2 ^ 24) * m) in *.
  destruct (mul_near _ v _ m _ 0 6.3 1 0.0000027 F2 Fm C2 Hm ltac:(apply Rabs_le; lra) Am ltac:(lra) ltac:(lra)) as (F1 & C1). clear F2 C2.
  assert (B3 : 0.6 <= (X2 + IZR 135989056 / 2 ^ 24) * m <= 6.3) by (clearbody X2; split; nra).
  destruct (dy_near (-14703861) 22 (IZR (-58815444) / 2 ^ 24) ltac:(lia) ltac:(lia) ltac:(cbn; lra)) as (F0 & C0).
  destruct (add_near _ _ _ _ _ _ 3 0.000003 F1 F0 C1 C0 ltac:(apply Rabs_le; lra) ltac:(lra) ltac:(lra)) as (F2 & C2). clear F0 C0 F1 C1.
  set (X3 := (X2 + IZR 135989056 / 2 ^ 24) * m) in *.
  assert (He : -125 <= IZR e <= 128) by (split; apply IZR_le; lia).
  destruct (dy_near e 0 (IZR e) ltac:(lia) ltac:(lia) ltac:(cbn; lra)) as (F0 & C0).
  destruct (add_near _ _ _ _ _ _ 131 0.000012 F0 F2 C0 C2 ltac:(apply Rabs_le; lra) ltac:(lra) ltac:(lra)) as (F3 & C3). split; [exact F3|].
  assert (EP : X3 + IZR (-58815444) / 2 ^ 24 = log2_p m) by (unfold X3, X2, X, log2_p; ring). rewrite EP in C3.
  pose proof (log2_p_ok m ltac:(lra)) as LP. pose proof ln2_dec as L2.
  assert (EL : ln (val x) / ln 2 = IZR e + ln m / ln 2).
  { rewrite Ev. fold m. rewrite bpow_exp, ln_mult, ln_exp by (try apply exp_pos; lra). change (IZR radix2) with 2. field. lra. }
  rewrite EL. set (w := val (Add _ _)) in *. clearbody w. apply Rabs_le. apply Rabs_le_inv in C3. apply Rabs_le_inv in LP. lra.
Qed.
