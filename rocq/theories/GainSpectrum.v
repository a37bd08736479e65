(** * Global gain from the coefficients, in binary32: levels of the blocks, limit of the
    quantizer, count of bits, least gain *)
From Coq Require Import Reals ZArith List Bool Lia Lra ZifyBool.
From Flocq Require Import Core.Core IEEE754.BinarySingleNaN.
From Verif Require Import Base BaseProofs ConfigModel FloatModel GainModel GainProofs GainFloat P_Gain P_Fast FloatOps FloatLaws F32Model F32Proofs SnsProject SpecEncModel SpecEncFloat SpecEncProofs GainLevelSpec.
Import ListNotations.
Local Open Scope R_scope.

(** ** Levels of the blocks *)
Lemma ln_le_sub y : 0 < y -> ln y <= y - 1.
Proof. intros Hy. pose proof (exp_ineq1_le (ln y)) as X. rewrite exp_ln in X by exact Hy. lra. Qed.
Lemma ln_close a b : 0 < b -> Rabs (a - b) <= / 1000000 * b -> 0 < a /\ Rabs (ln a - ln b) <= 2 / 1000000.
Proof.
  intros Hb H. apply Rabs_le_inv in H. assert (Ha : 0 < a) by lra. split; [exact Ha|].
  assert (D : ln a - ln b = ln (a / b)) by (unfold Rdiv; rewrite ln_mult, ln_Rinv by (try apply Rinv_0_lt_compat; assumption); ring).
  assert (Q : 1 - / 1000000 <= a / b <= 1 + / 1000000).
  { split; [apply Rmult_le_reg_r with b|apply Rmult_le_reg_r with b]; try exact Hb; unfold Rdiv; rewrite ?(Rmult_assoc a), Rinv_l by lra; lra. }
  rewrite D. set (q := a / b) in *. clearbody q. clear - Q. pose proof (ln_le_sub q ltac:(lra)) as U. assert (P : 0 < / q) by (apply Rinv_0_lt_compat; lra).
  pose proof (ln_le_sub (/ q) P) as L. rewrite ln_Rinv in L by lra. assert (I : / q <= 1 + 2 / 1000000). { apply Rmult_le_reg_l with q; [lra|]. rewrite Rinv_r by lra. nra. }
  apply Rabs_le. lra.
Qed.

(** [a] is the sum [s] of squares, to [k] roundings. *)
Definition sum_near (k j : R) (a : f32) (s : R) : Prop := fin a /\ 0 <= s /\ Rabs (val a - s) <= k * ru * s + j * rt.
Lemma sum_add k j a b s t : sum_near k j a s -> sum_near k j b t -> 0 <= k <= 16 -> 0 <= j <= 1000 -> s + t <= p2 90 -> sum_near (k + 2) (4 * j + 1) (Add a b) (s + t).
Proof.
  intros (Fa & Ps & A) (Fb & Pt & B) K J L. pose proof ru_b as U. pose proof rt_small as (R0 & R1). pose proof p2_100 as R2.
  assert (P90 : 1 <= p2 90) by (change 1 with (p2 0); apply bpow_le; lia).
  assert (D : Rabs (val a + val b - (s + t)) <= k * ru * (s + t) + 2 * j * rt).
  { replace (val a + val b - (s + t)) with (val a - s + (val b - t)) by ring. eapply Rle_trans; [apply Rabs_triang|]. lra. }
  assert (KU : k * ru <= 16 * / 16000000) by (apply Rmult_le_compat; lra). assert (JR : 2 * j * rt <= 2000 * rt) by (apply Rmult_le_compat_r; lra).
  assert (KS : 0 <= k * ru * (s + t) <= s + t). { assert (0 <= k * ru) by (apply Rmult_le_pos; lra). split; [apply Rmult_le_pos; lra|]. rewrite <- (Rmult_1_l (s + t)) at 2. apply Rmult_le_compat_r; lra. }
  assert (M : Rabs (val a + val b) <= 2 * (s + t) + 2 * j * rt).
  { replace (val a + val b) with (val a + val b - (s + t) + (s + t)) by ring. eapply Rle_trans; [apply Rabs_triang|]. rewrite (Rabs_pos_eq (s + t)) by lra. lra. }
  assert (Q : Rabs (val a + val b) <= IZR 1 * p2 92).
  { rewrite Rmult_1_l. change 92%Z with (2 + 90)%Z. rewrite bpow_plus. change (p2 2) with 4. lra. }
  destruct (rnd_bnd _ _ _ (kok1 92 ltac:(unfold eok; lia)) Q) as (_ & Q2). destruct (add_val a b Fa Fb Q2) as (Fs & Vs). split; [exact Fs|]. split; [lra|].
  pose proof (rnd_err (val a + val b)) as E. rewrite <- Vs in E. replace (val (Add a b) - (s + t)) with (val (Add a b) - (val a + val b) + (val a + val b - (s + t))) by ring.
  eapply Rle_trans; [apply Rabs_triang|]. assert (UM : ru * Rabs (val a + val b) <= ru * (2 * (s + t) + 2 * j * rt)) by (apply Rmult_le_compat_l; lra).
  assert (UJ : ru * (2 * j * rt) <= 2 * j * rt). { rewrite <- (Rmult_1_l (2 * j * rt)) at 2. apply Rmult_le_compat_r; [|lra]. apply Rmult_le_pos; lra. }
  lra.
Qed.
Lemma sum_weak k j k' j' a s : sum_near k j a s -> k <= k' -> j <= j' -> sum_near k' j' a s.
Proof.
  intros (F & P & A) K J. split; [exact F|]. split; [exact P|]. pose proof ru_b as U. pose proof rt_small as (R0 & _).
  assert (k * ru * s <= k' * ru * s) by (apply Rmult_le_compat_r; [lra|apply Rmult_le_compat_r; lra]). assert (j * rt <= j' * rt) by (apply Rmult_le_compat_r; lra). lra.
Qed.

Lemma block_level nan x0 x1 x2 x3 : Forall (fun v => fin v /\ Rabs (val v) <= x_bound) [x0; x1; x2; x3] ->
  exists d, block_db nan c0 (Add (Add (Add (Mul x0 x0) (Mul x1 x1)) (Mul x2 x2)) (Mul x3 x3)) = Some d /\
    Rabs (IZR d / 65536 - level (val x0 * val x0 + val x1 * val x1 + val x2 * val x2 + val x3 * val x3)) <= 15 / 10000.
Proof.
  intros H. inversion H as [|? ? (F0 & B0) H1]; subst. inversion H1 as [|? ? (F1 & B1) H2]; subst. inversion H2 as [|? ? (F2 & B2) H3]; subst. inversion H3 as [|? ? (F3 & B3) _]; subst.
  assert (P41 : x_bound * x_bound <= p2 41) by (unfold x_bound; cbn; lra).
  assert (SQ : forall x, fin x -> Rabs (val x) <= x_bound -> sum_near 1 1 (Mul x x) (val x * val x) /\ val x * val x <= p2 41).
  { intros x F B. destruct (square_err x x_bound F B) as (A1 & A2 & A3); [eapply Rle_trans; [exact P41|apply bpow_le; lia]|unfold x_bound; lra|].
    split; [split; [exact A1|split; [nra|lra]]|]. apply Rle_trans with (x_bound * x_bound); [|exact P41]. replace (val x * val x) with (Rabs (val x) * Rabs (val x)) by (rewrite <- Rabs_mult; apply Rabs_pos_eq; nra). apply Rmult_le_compat; auto using Rabs_pos. }
  destruct (SQ x0 F0 B0) as (Q0 & L0). destruct (SQ x1 F1 B1) as (Q1 & L1). destruct (SQ x2 F2 B2) as (Q2 & L2). destruct (SQ x3 F3 B3) as (Q3 & L3). clear SQ.
  assert (P43 : 4 * p2 41 = p2 43) by (change 43%Z with (2 + 41)%Z; rewrite bpow_plus; reflexivity). assert (P90 : p2 43 <= p2 90) by (apply bpow_le; lia). pose proof (bpow_gt_0 radix2 41) as P0.
  pose proof (sum_add 1 1 _ _ _ _ Q0 Q1 ltac:(lra) ltac:(lra) ltac:(lra)) as S1.
  pose proof (sum_add 3 5 _ _ _ _ (sum_weak _ _ 3 5 _ _ S1 ltac:(lra) ltac:(lra)) (sum_weak _ _ 3 5 _ _ Q2 ltac:(lra) ltac:(lra)) ltac:(lra) ltac:(lra) ltac:(lra)) as S2.
  pose proof (sum_add 5 21 _ _ _ _ (sum_weak _ _ 5 21 _ _ S2 ltac:(lra) ltac:(lra)) (sum_weak _ _ 5 21 _ _ Q3 ltac:(lra) ltac:(lra)) ltac:(lra) ltac:(lra) ltac:(lra)) as (Fe & Pe & Ee).
  pose proof (fun e n => C48_energy nan e n) as CE.
  assert (N0 : forall x, 0 <= val (Mul x x) \/ True) by auto. clear N0.
  assert (P43p : 0 <= val (Add (Add (Add (Mul x0 x0) (Mul x1 x1)) (Mul x2 x2)) (Mul x3 x3))).
  { destruct (x_sq x0 F0 B0) as (A0 & C0). destruct (x_sq x1 F1 B1) as (A1 & C1). destruct (x_sq x2 F2 B2) as (A2 & C2). destruct (x_sq x3 F3 B3) as (A3 & C3).
    destruct (bnd_add_pos 1 1 41 _ _ ltac:(unfold kok; lia) A0 A1 C0 C1) as (D1 & D1p). destruct (bnd_add_pos 2 1 41 _ _ ltac:(unfold kok; lia) D1 A2 D1p C2) as (D2 & D2p).
    destruct (bnd_add_pos 3 1 41 _ _ ltac:(unfold kok; lia) D2 A3 D2p C3) as (_ & D3p). exact D3p. }
  set (e := Add (Add (Add (Mul x0 x0) (Mul x1 x1)) (Mul x2 x2)) (Mul x3 x3)) in *. clearbody e.
  set (E := val x0 * val x0 + val x1 * val x1 + val x2 * val x2 + val x3 * val x3) in *. assert (EL : E <= p2 43) by (unfold E; lra). clearbody E. clear - CE Fe Pe Ee P43p EL.
  pose proof ru_b as U. pose proof rt_small as (R0 & R1). assert (R2 : p2 (-100) <= / 1000000000000000000000). { apply Rle_trans with (p2 (-80)); [apply bpow_le; lia|]. cbn. lra. }
  assert (UE : (5 + 2) * ru * E <= (5 + 2) * / 16000000 * E) by (apply Rmult_le_compat_r; lra).
  apply Rabs_le_inv in Ee. assert (P61 : 2 ^ 61 = p2 61) by (symmetry; rewrite <- (p2_pos 61); reflexivity).
  assert (P44 : 2 * p2 43 <= p2 61). { change 61%Z with (18 + 43)%Z. rewrite bpow_plus. assert (0 < p2 43) by apply bpow_gt_0. assert (2 <= p2 18) by (cbn; lra). apply Rmult_le_compat_r; lra. }
  assert (P43b : 1 <= p2 43) by (change 1 with (p2 0); apply bpow_le; lia).
  destruct (CE e c0 Fe eq_refl) as (d & s & D1 & D2 & D3).
  { fold (val e). rewrite P61. lra. }
  { change (B2R c0) with 0. rewrite P61. lra. }
  clear CE. exists d. split; [exact D1|]. change (B2R c0) with 0 in D2. fold (val e) in D2. rewrite Rplus_0_r in D2. apply Rabs_le_inv in D2. unfold level.
  set (M := Rmax E (/ 10000000000)). set (w := Rmax s (14411519 / 2 ^ 57)) in *. set (l10 := ln 10) in *. assert (L10 : 2 <= l10). { pose proof FastReal.ln10_dec as A. fold l10 in A. lra. }
  assert (C57 : Rabs (14411519 / 2 ^ 57 - / 10000000000) <= / 100000000000000000) by (apply Rabs_le; lra). apply Rabs_le_inv in C57. set (c := 14411519 / 2 ^ 57) in *. clearbody c.
  assert (W : Rabs (w - M) <= / 1000000 * M).
  { apply Rabs_le. unfold w, M, Rmax. destruct (Rle_dec s c); destruct (Rle_dec E (/ 10000000000)); lra. }
  assert (M0 : 0 < M) by (unfold M; eapply Rlt_le_trans; [|apply Rmax_r]; lra).
  destruct (ln_close w M M0 W) as (_ & LC). clearbody w M l10. apply Rabs_le_inv in D3, LC.
  assert (K : Rabs (10 * (ln w / l10) - 10 * (ln M / l10)) <= 1 / 10000).
  { replace (10 * (ln w / l10) - 10 * (ln M / l10)) with (10 * (ln w - ln M) * / l10) by (field; lra). rewrite Rabs_mult, (Rabs_pos_eq (/ l10)) by (left; apply Rinv_0_lt_compat; lra).
    apply Rmult_le_reg_r with l10; [lra|]. rewrite Rmult_assoc, Rinv_l, Rmult_1_r by lra. apply Rle_trans with (20 / 1000000); [apply Rabs_le; lra|lra]. }
  apply Rabs_le_inv in K. apply Rabs_le. lra.
Qed.

Lemma levels nan : forall n4 x, length x = (4 * n4)%nat -> Forall (fun v => fin v /\ Rabs (val v) <= x_bound) x ->
  forall es db, block_energies n4 x = Some es -> all_some (map (block_db nan c0) es) = Some db ->
  forall k, (0 <= k < Z.of_nat n4)%Z -> Rabs (IZR (znth db k 0%Z) / 65536 - level (block_sum x k)) <= 15 / 10000.
Proof.
  induction n4 as [|n4 IH]; intros x L H es db E1 E2 k Hk; [lia|]. destruct x as [|x0 [|x1 [|x2 [|x3 r]]]]; try (cbn in L; lia).
  cbn [block_energies] in E1. destruct (block_energies n4 r) as [es'|] eqn:E3; [|discriminate]. cbn [bind] in E1. injection E1 as <-. cbn [map all_some] in E2.
  destruct (block_level nan x0 x1 x2 x3) as (d & D1 & D2). { inversion H as [|? ? A0 H1]; subst. inversion H1 as [|? ? A1 H2]; subst. inversion H2 as [|? ? A2 H3]; subst. inversion H3; subst. auto. }
  rewrite D1 in E2. cbn [bind] in E2. destruct (all_some (map (block_db nan c0) es')) as [db'|] eqn:E4; [|discriminate]. cbn [bind] in E2. injection E2 as <-.
  destruct (Z.eq_dec k 0) as [->|K0]; [exact D2|].
  assert (Hr : Forall (fun v => fin v /\ Rabs (val v) <= x_bound) r). { inversion H as [|? ? A0 H1]; subst. inversion H1 as [|? ? A1 H2]; subst. inversion H2 as [|? ? A2 H3]; subst. inversion H3; subst. assumption. }
  pose proof (IH r ltac:(cbn in L; lia) Hr es' db' E3 E4 (k - 1)%Z ltac:(lia)) as A.
  assert (Z1 : forall B (b : B) l z, (1 <= z)%Z -> forall dd, znth (b :: l) z dd = znth l (z - 1) dd).
  { intros B b l z Hz dd. unfold znth. replace (Z.to_nat z) with (S (Z.to_nat (z - 1))) by lia. replace ((z <? 0)%Z) with false by lia. replace ((z - 1 <? 0)%Z) with false by lia. reflexivity. }
  rewrite Z1 by lia. replace (block_sum (x0 :: x1 :: x2 :: x3 :: r) k) with (block_sum r (k - 1)); [exact A|]. 
  assert (Z4 : forall i, (0 <= i)%Z -> znth (x0 :: x1 :: x2 :: x3 :: r) (4 * k + i) c0 = znth r (4 * (k - 1) + i) c0). { intros i Hi. rewrite !Z1 by lia. f_equal. lia. }
  unfold block_sum. cbv zeta. change (f32_dy 0 0) with c0. rewrite !Z4 by lia. reflexivity.
Qed.

(** ** Limit of the quantizer *)
Lemma max_attained (x : list f32) B : forall m, fin m -> Forall (fun v => fin v /\ Rabs (val v) <= B) x -> B * B <= p2 100 -> 0 <= B ->
  let r := fold_left (fun m v => f32_max m (Mul v v)) x m in val r = val m \/ exists v, In v x /\ val r = val (Mul v v).
Proof.
  induction x as [|v x IH]; intros m Fm H HB B0; cbn [fold_left]; [left; reflexivity|]. inversion H as [|? ? (Fv & Bv) Hx]; subst.
  destruct (square_err v B Fv Bv HB B0) as (F2 & P2 & _). destruct (max_val m (Mul v v) Fm F2) as (F3 & V3). cbv zeta in IH.
  destruct (IH _ F3 Hx HB B0) as [E|(w & I & E)].
  - rewrite E, V3. unfold Rmax. destruct (Rle_dec _ _); [right; exists v; split; [left; reflexivity|reflexivity]|left; reflexivity].
  - right. exists w. split; [right; exact I|exact E].
Qed.
Lemma x_max_attained x : Forall (fun v => fin v /\ Rabs (val v) <= x_bound) x -> let m := Bsqrt mode_NE (square_max x) in
  p2 (-50) <= val m -> exists v, In v x /\ (1 - / 1000000) * val m <= Rabs (val v).
Proof.
  intros H. cbv zeta. assert (HB : x_bound * x_bound <= p2 100) by (unfold x_bound; apply Rle_trans with (p2 60); [cbn; lra|apply bpow_le; lia]). assert (B0 : 0 <= x_bound) by (unfold x_bound; lra).
  destruct (max_fold x x_bound c0 eq_refl ltac:(right; reflexivity) H HB B0) as (F & P & _). fold (square_max x) in F, P. change (val c0) with 0 in P.
  pose proof (max_attained x x_bound c0 eq_refl H HB B0) as AT. fold (square_max x) in AT. cbv zeta in AT. change (val c0) with 0 in AT.
  destruct (sqrt_fin _ F P) as (F2 & V2). set (m2 := square_max x) in *. set (m := Bsqrt mode_NE m2) in *. clearbody m m2. intros HM.
  pose proof (rnd_err (sqrt (val m2))) as R. rewrite <- V2 in R. rewrite (Rabs_pos_eq (sqrt (val m2))) in R by apply sqrt_pos. apply Rabs_le_inv in R. pose proof (sqrt_sqrt (val m2) P) as SS. pose proof (sqrt_pos (val m2)) as SP.
  set (s := sqrt (val m2)) in *. clearbody s. pose proof ru_b as U. pose proof (bpow_gt_0 radix2 (-50)) as P50.
  assert (T1 : rt <= ru * val m). { apply Rle_trans with (ru * p2 (-50)); [unfold ru, rt; rewrite <- bpow_plus; apply bpow_le; lia|apply Rmult_le_compat_l; lra]. }
  assert (T2 : rt <= ru * (val m * val m)). { apply Rle_trans with (ru * (p2 (-50) * p2 (-50))); [unfold ru, rt; rewrite <- !bpow_plus; apply bpow_le; lia|apply Rmult_le_compat_l; [lra|]; apply Rmult_le_compat; lra]. }
  set (mm := val m) in *. clearbody mm.
  assert (S1 : mm * (1 - 3 * ru) <= s). { assert (mm * (1 - ru) <= s * (1 + ru)) by lra. apply Rmult_le_reg_r with (1 + ru); [lra|]. apply Rle_trans with (mm * (1 - ru)); [|lra]. rewrite Rmult_assoc. apply Rmult_le_compat_l; [lra|]. nra. }
  assert (S2 : mm * mm * (1 - 6 * ru) <= val m2).
  { rewrite <- SS. apply Rle_trans with (mm * (1 - 3 * ru) * (mm * (1 - 3 * ru))); [|apply Rmult_le_compat; try exact S1; apply Rmult_le_pos; lra].
    replace (mm * (1 - 3 * ru) * (mm * (1 - 3 * ru))) with (mm * mm * ((1 - 3 * ru) * (1 - 3 * ru))) by ring. apply Rmult_le_compat_l; [nra|nra]. }
  destruct AT as [E|(v & I & E)].
  { exfalso. rewrite E in S2. assert (0 < mm * mm) by nra. assert (0 < mm * mm * (1 - 6 * ru)) by (apply Rmult_lt_0_compat; lra). lra. }
  exists v. split; [exact I|]. rewrite Forall_forall in H. destruct (H v I) as (Fv & Bv). destruct (square_err v x_bound Fv Bv HB B0) as (_ & _ & Q). apply Rabs_le_inv in Q. rewrite <- E in Q.
  assert (A : mm * mm * (1 - 8 * ru) <= val v * val v).
  { apply Rmult_le_reg_r with (1 + ru); [lra|]. apply Rle_trans with (mm * mm * (1 - 7 * ru)); [|lra]. rewrite Rmult_assoc. apply Rmult_le_compat_l; [nra|nra]. }
  replace (val v * val v) with (Rabs (val v) * Rabs (val v)) in A by (rewrite <- Rabs_mult; apply Rabs_pos_eq; nra). pose proof (Rabs_pos (val v)) as AP. set (a := Rabs (val v)) in *. clearbody a.
  apply Rle_trans with (mm * (1 - 8 * ru)); [|apply Rsqr_incr_0; [|apply Rmult_le_pos; lra|exact AP]]; [nra|]. unfold Rsqr. eapply Rle_trans; [|exact A].
  replace (mm * (1 - 8 * ru) * (mm * (1 - 8 * ru))) with (mm * mm * ((1 - 8 * ru) * (1 - 8 * ru))) by ring. apply Rmult_le_compat_l; [nra|nra].
Qed.
Lemma fits32_not sr m g : is_hr sr = false -> (-255 <= g <= 255)%Z -> fin m -> fits32 sr m g = false -> (1 - / 100000) * (32767 * ten g) <= val m.
Proof.
  intros Hr H F E. unfold fits32 in E. rewrite Hr in E. destruct (gain32_ok g H) as (a & Ea & Fa & V). rewrite Ea in E.
  assert (F1 : fin (f32_of_int 32767) /\ val (f32_of_int 32767) = 32767) by (apply of_int_ok; lia).
  destruct F1 as (F1 & V1). pose proof (ten_big g ltac:(lia)) as T. pose proof lim_2 as L2.
  assert (A0 : 0 <= val a <= 2 * ten g) by nra.
  destruct (mul_err (f32_of_int 32767) a 1000000000000000 F1 Fa) as (F3 & V3).
  { rewrite V1. rewrite (Rabs_pos_eq 32767), (Rabs_pos_eq (val a)) by lra. nra. }
  { apply Rle_trans with (p2 60); [cbn; lra|apply bpow_le; lia]. }
  rewrite Bltb_correct in E by assumption. fold (val m) (val (Mul (f32_of_int 32767) a)) in E. destruct (Rlt_bool_spec (val m) (val (Mul (f32_of_int 32767) a))) as [E2|E2]; [discriminate E|].
  apply Rabs_le_inv in V3. rewrite V1 in V3. rewrite (Rabs_pos_eq 32767), (Rabs_pos_eq (val a)) in V3 by lra. pose proof ru_b as U.
  assert (T255 : / 10000000000 <= ten g). { pose proof (ten_opp g) as O. pose proof (ten_big (- g) ltac:(lia)) as T2. apply Rmult_le_reg_r with (ten (- g)); [lra|]. rewrite O. lra. }
  pose proof rt_small as (_ & R1). assert (R2 : rt <= ru * ten g).
  { apply Rle_trans with (ru * / 10000000000); [|apply Rmult_le_compat_l; lra]. apply Rle_trans with (ru * p2 (-34)); [|apply Rmult_le_compat_l; [lra|cbn; lra]]. unfold ru, rt. rewrite <- bpow_plus. apply bpow_le. lia. }
  nra.
Qed.

(** ** Least gain *)
Lemma estimate_least sr nbytes nbits budget es fits z : gain_inputs sr nbytes nbits budget es ->
  let g_off := gain_offset sr nbytes in let C g := cost (g * k_20_28)%Z es in
  (C (127 - g_off) <= INT_MAX)%Z ->
  exists g0 gm, estimate_gain nbits g_off es fits z = Some ((if (g0 <? gm)%Z || z then gm else g0), gm, ((g0 <? gm)%Z || z)) /\
    least (- g_off) (255 - g_off) (fun g => (C g <= nbits * k_1u4)%Z) g0 /\
    (- g_off <= gm <= 255 - g_off)%Z /\ (gm = 255 - g_off \/ fits gm = true)%Z /\ (gm = - g_off \/ fits (gm - 1) = false)%Z.
Proof.
  intros (Hs & Hb & Hn & _ & Hl & He). cbv zeta. pose proof (gain_offset_range sr nbytes Hs Hb) as Ho. set (g_off := gain_offset sr nbytes) in *. clearbody g_off. intros V.
  unfold estimate_gain. rewrite search_steps_eq.
  destruct (search_ok nbits es He Hn Hl 8 (255 - g_off) (rev es)) as [(E & _ & V')|(g' & E & R & K & P1 & P2)]; try lia.
  - intros gn _. reflexivity.
  - replace (255 - g_off - 128)%Z with (127 - g_off)%Z in V' by lia. exfalso; exact (Zlt_not_le _ _ V' V).
  - rewrite E. cbn [bind]. change (2 ^ Z.of_nat 8)%Z with 256%Z in *. pose proof (search_min_ok fits 8 (255 - g_off)) as M. cbv zeta in M. set (gm := search_min (steps 8) fits (255 - g_off)) in *. clearbody gm.
    change (2 ^ Z.of_nat 8)%Z with 256%Z in M. destruct M as (Rm & M1 & M2).
    exists g', gm. split; [reflexivity|]. split; [|split; [lia|split; [exact M1|destruct M2 as [M2|M2]; [left; lia|right; exact M2]]]].
    split; [lia|]. split; [exact P1|]. intros g2 Hg2. destruct P2 as [P2|P2]; [lia|]. pose proof (cost_mono (g2 * k_20_28) ((g' - 1) * k_20_28) es ltac:(unfold k_20_28; lia)). lia.
Qed.

(** ** Count of bits *)
Lemma trunc_near (x : f32) k : (0 <= k <= 2 ^ 24)%Z -> bnd k 0 x -> exists z, f32_trunc x = Some z /\ (Z.abs z <= k)%Z /\
  (0 <= val x -> IZR z <= val x < IZR z + 1) /\ (val x <= 0 -> (z <= 0)%Z).
Proof.
  intros Hk (F & B). destruct (trunc_ok x k Hk (conj F B)) as (z & E & Bz). exists z. split; [exact E|]. split; [exact Bz|].
  destruct (units_ok x F) as (u & Eu & Vu & _). unfold f32_trunc in E. rewrite Eu in E. cbn [bind] in E. unfold F32Model.f32_int in E. destruct ((_ && _)%bool); [|discriminate]. injection E as <-.
  assert (O : IZR one = p2 149) by (change one with (Zpower radix2 149); rewrite IZR_Zpower by lia; reflexivity). pose proof (bpow_gt_0 radix2 149) as P0.
  split; intros S.
  - assert (U0 : (0 <= u)%Z) by (apply le_IZR; rewrite Vu; apply Rmult_le_pos; lra). rewrite Z.quot_div_nonneg by (try reflexivity; lia).
    assert (DM : (one * (u / one) <= u < one * (u / one) + one)%Z). { pose proof (Z.div_mod u one ltac:(discriminate)). pose proof (Z.mod_pos_bound u one ltac:(reflexivity)). lia. }
    destruct DM as (D1 & D2). apply IZR_le in D1. apply IZR_lt in D2. rewrite mult_IZR, O in D1. rewrite plus_IZR, mult_IZR, O in D2. rewrite Vu in D1, D2. split; [apply Rmult_le_reg_r with (p2 149); lra|apply Rmult_lt_reg_r with (p2 149); lra].
  - assert (U0 : (u <= 0)%Z) by (apply le_IZR; rewrite Vu; nra). pose proof (Z.quot_le_mono u 0 one ltac:(reflexivity) U0) as Q. rewrite Z.quot_0_l in Q by discriminate. exact Q.
Qed.
