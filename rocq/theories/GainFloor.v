(** * Global gain with the noise floor of the high resolution modes *)
From Coq Require Import Reals ZArith List Bool Lia Lra ZifyBool.
From Flocq Require Import Core.Core IEEE754.BinarySingleNaN.
From Verif Require Import Base BaseProofs ConfigModel FloatModel GainModel GainProofs GainFloat P_Gain P_Fast FloatOps FloatLaws F32Model F32Proofs SnsProject SpecEncModel SpecEncFloat SpecEncProofs GainLevelSpec GainSpectrum FastFloat SpecZero.
Import ListNotations.
Local Open Scope R_scope.

Lemma block_level_nf nan nf x0 x1 x2 x3 : fin nf -> 0 <= val nf <= p2 43 -> Forall (fun v => fin v /\ Rabs (val v) <= x_bound) [x0; x1; x2; x3] ->
  exists d, block_db nan nf (Add (Add (Add (Mul x0 x0) (Mul x1 x1)) (Mul x2 x2)) (Mul x3 x3)) = Some d /\
    Rabs (IZR d / 65536 - level (val x0 * val x0 + val x1 * val x1 + val x2 * val x2 + val x3 * val x3 + val nf)) <= 15 / 10000.
Proof.
  intros Fn Hn H. inversion H as [|? ? (F0 & B0) H1]; subst. inversion H1 as [|? ? (F1 & B1) H2]; subst. inversion H2 as [|? ? (F2 & B2) H3]; subst. inversion H3 as [|? ? (F3 & B3) _]; subst.
  assert (P41 : x_bound * x_bound <= p2 41) by (unfold x_bound; cbn; lra).
  assert (SQ : forall x, fin x -> Rabs (val x) <= x_bound -> sum_near 1 1 (Mul x x) (val x * val x) /\ val x * val x <= p2 41).
  { intros x F B. destruct (square_err x x_bound F B) as (A1 & A2 & A3); [eapply Rle_trans; [exact P41|apply bpow_le; lia]|unfold x_bound; lra|].
    split; [split; [exact A1|split; [nra|lra]]|]. apply Rle_trans with (x_bound * x_bound); [|exact P41]. replace (val x * val x) with (Rabs (val x) * Rabs (val x)) by (rewrite <- Rabs_mult; apply Rabs_pos_eq; nra). apply Rmult_le_compat; auto using Rabs_pos. }
  destruct (SQ x0 F0 B0) as (Q0 & L0). destruct (SQ x1 F1 B1) as (Q1 & L1). destruct (SQ x2 F2 B2) as (Q2 & L2). destruct (SQ x3 F3 B3) as (Q3 & L3). clear SQ.
  assert (P43 : 4 * p2 41 = p2 43) by (change 43%Z with (2 + 41)%Z; rewrite bpow_plus; reflexivity). assert (P90 : p2 43 <= p2 90) by (apply bpow_le; lia). pose proof (bpow_gt_0 radix2 41) as P0.
  pose proof (sum_add 1 1 _ _ _ _ Q0 Q1 ltac:(lra) ltac:(lra) ltac:(lra)) as S1.
  pose proof (sum_add 3 5 _ _ _ _ (sum_weak _ _ 3 5 _ _ S1 ltac:(lra) ltac:(lra)) (sum_weak _ _ 3 5 _ _ Q2 ltac:(lra) ltac:(lra)) ltac:(lra) ltac:(lra) ltac:(lra)) as S2.
  pose proof (sum_add 5 21 _ _ _ _ (sum_weak _ _ 5 21 _ _ S2 ltac:(lra) ltac:(lra)) (sum_weak _ _ 5 21 _ _ Q3 ltac:(lra) ltac:(lra)) ltac:(lra) ltac:(lra) ltac:(lra)) as (Fe & Pe & Ee).
  pose proof (fun e n => C48_energy nan e n) as CE.
  assert (N0 : forall x, 0 <= val (Mul x x) \/ True) by auto. clear N0.
  assert (P43p : 0 <= val (Add (Add (Add (Mul x0 x0) (Mul x1 x1)) (Mul x2 x2)) (Mul x3 x3))).
  { destruct (x_sq x0 F0 B0) as (A0 & C0). destruct (x_sq x1 F1 B1) as (A1 & C1). destruct (x_sq x2 F2 B2) as (A2 & C2). destruct (x_sq x3 F3 B3) as (A3 & C3).
    destruct (bnd_add_pos 1 1 41 _ _ ltac:(unfold kok; lia) A0 A1 C0 C1) as (D1 & D1p). destruct (bnd_add_pos 2 1 41 _ _ ltac:(unfold kok; lia) D1 A2 D1p C2) as (D2 & D2p).
    destruct (bnd_add_pos 3 1 41 _ _ ltac:(unfold kok; lia) D2 A3 D2p C3) as (_ & D3p). exact D3p. }
  set (e := Add (Add (Add (Mul x0 x0) (Mul x1 x1)) (Mul x2 x2)) (Mul x3 x3)) in *. clearbody e.
  set (E := val x0 * val x0 + val x1 * val x1 + val x2 * val x2 + val x3 * val x3) in *. assert (EL : E <= p2 43) by (unfold E; lra). clearbody E. clear - CE Fe Pe Ee P43p EL Fn Hn.
  pose proof ru_b as U. pose proof rt_small as (R0 & R1). assert (R2 : p2 (-100) <= / 1000000000000000000000). { apply Rle_trans with (p2 (-80)); [apply bpow_le; lia|]. cbn. lra. }
  assert (UE : (5 + 2) * ru * E <= (5 + 2) * / 16000000 * E) by (apply Rmult_le_compat_r; lra).
  apply Rabs_le_inv in Ee. assert (P61 : 2 ^ 61 = p2 61) by (symmetry; rewrite <- (p2_pos 61); reflexivity).
  assert (P44 : 2 * p2 43 <= p2 61). { change 61%Z with (18 + 43)%Z. rewrite bpow_plus. assert (0 < p2 43) by apply bpow_gt_0. assert (2 <= p2 18) by (cbn; lra). apply Rmult_le_compat_r; lra. }
  assert (P43b : 1 <= p2 43) by (change 1 with (p2 0); apply bpow_le; lia).
  destruct (CE e nf Fe Fn) as (d & s & D1 & D2 & D3).
  { fold (val e). rewrite P61. lra. }
  { fold (val nf). rewrite P61. lra. }
  clear CE. exists d. split; [exact D1|]. fold (val e) (val nf) in D2. set (n := val nf) in *. clearbody n. apply Rabs_le_inv in D2. unfold level.
  set (M := Rmax (E + n) (/ 10000000000)). set (w := Rmax s (14411519 / 2 ^ 57)) in *. set (l10 := ln 10) in *. assert (L10 : 2 <= l10). { pose proof FastReal.ln10_dec as A. fold l10 in A. lra. }
  assert (C57 : Rabs (14411519 / 2 ^ 57 - / 10000000000) <= / 100000000000000000) by (apply Rabs_le; lra). apply Rabs_le_inv in C57. set (c := 14411519 / 2 ^ 57) in *. clearbody c.
  assert (W : Rabs (w - M) <= / 1000000 * M).
  { apply Rabs_le. unfold w, M, Rmax. destruct (Rle_dec s c); destruct (Rle_dec (E + n) (/ 10000000000)); lra. }
  assert (M0 : 0 < M) by (unfold M; eapply Rlt_le_trans; [|apply Rmax_r]; lra).
  destruct (ln_close w M M0 W) as (_ & LC). clearbody w M l10. apply Rabs_le_inv in D3, LC.
  assert (K : Rabs (10 * (ln w / l10) - 10 * (ln M / l10)) <= 1 / 10000).
  { replace (10 * (ln w / l10) - 10 * (ln M / l10)) with (10 * (ln w - ln M) * / l10) by (field; lra). rewrite Rabs_mult, (Rabs_pos_eq (/ l10)) by (left; apply Rinv_0_lt_compat; lra).
    apply Rmult_le_reg_r with l10; [lra|]. rewrite Rmult_assoc, Rinv_l, Rmult_1_r by lra. apply Rle_trans with (20 / 1000000); [apply Rabs_le; lra|lra]. }
  apply Rabs_le_inv in K. apply Rabs_le. lra.
Qed.


Lemma ln_mono a b : 0 < a -> a <= b -> ln a <= ln b.
Proof. intros H [L|<-]; [left; apply ln_increasing; assumption|right; reflexivity]. Qed.
Lemma ln_pown a n : 0 < a -> ln (a ^ n) = INR n * ln a.
Proof. intros H. induction n as [|n IH]; [cbn; rewrite ln_1; ring|]. rewrite S_INR. cbn [pow]. rewrite ln_mult, IH by (try apply pow_lt; exact H). ring. Qed.
(** The level of a spectrum in the range is in the range of the energies. *)
Lemma level_range e d : 0 <= e <= p2 45 -> Rabs (IZR d / 65536 - level e) <= 15 / 10000 -> energy d.
Proof.
  intros (E0 & E1) H. unfold level in H. set (m := Rmax e (/ 10000000000)) in *. pose proof FastReal.ln10_dec as L10. pose proof FastReal.ln2_dec as L2.
  assert (M : / 10000000000 <= m <= p2 45). { unfold m. split; [apply Rmax_r|apply Rmax_lub; [exact E1|]]. apply Rle_trans with (p2 0); [cbn; lra|apply bpow_le; lia]. }
  assert (LH : ln m <= 45 * ln 2). { apply Rle_trans with (ln (p2 45)); [apply ln_mono; lra|]. right. change 45%Z with (Z.of_nat 45). rewrite p2_pos. rewrite ln_pown by lra. f_equal. rewrite INR_IZR_INZ. reflexivity. }
  assert (LL : - (10 * ln 10) <= ln m). { apply Rle_trans with (ln (/ 10000000000)); [|apply ln_mono; lra]. right. rewrite ln_Rinv by lra. f_equal. replace 10000000000 with (10 ^ 10) by ring. rewrite ln_pown by lra. f_equal. rewrite INR_IZR_INZ. reflexivity. }
  clearbody m. apply Rabs_le_inv in H. set (q := ln m / ln 10) in *. assert (Q : q * ln 10 = ln m) by (unfold q; field; lra). clearbody q.
  assert (Q1 : q <= 14) by nra. assert (Q2 : -10 <= q) by nra. unfold energy, e_min, e_max. split; apply le_IZR; lra.
Qed.
Lemma levels_nf nan nf : fin nf -> 0 <= val nf <= p2 43 -> forall n4 x, length x = (4 * n4)%nat -> Forall (fun v => fin v /\ Rabs (val v) <= x_bound) x ->
  exists es db, block_energies n4 x = Some es /\ all_some (map (block_db nan nf) es) = Some db /\ length db = n4 /\ (forall e, In e db -> energy e) /\
  forall k, (0 <= k < Z.of_nat n4)%Z -> Rabs (IZR (znth db k 0%Z) / 65536 - level (block_sum x k + val nf)) <= 15 / 10000.
Proof.
  intros Fn Hn. induction n4 as [|n4 IH]; intros x L H.
  { exists nil, nil. destruct x; [|discriminate L]. split; [reflexivity|]. split; [reflexivity|]. split; [reflexivity|]. split; [intros e []|intros k Hk; lia]. }
  destruct x as [|x0 [|x1 [|x2 [|x3 r]]]]; try (cbn in L; lia).
  inversion H as [|? ? A0 H1]; subst. inversion H1 as [|? ? A1 H2]; subst. inversion H2 as [|? ? A2 H3]; subst. inversion H3 as [|? ? A3 Hr]; subst.
  destruct (IH r ltac:(cbn in L; lia) Hr) as (es & db & E1 & E2 & E3 & E4 & E5). destruct (block_level_nf nan nf x0 x1 x2 x3 Fn Hn ltac:(auto)) as (d & D1 & D2).
  cbn [block_energies]. rewrite E1. cbn [bind]. eexists. exists (d :: db). split; [reflexivity|]. cbn [map all_some]. rewrite D1. cbn [bind]. rewrite E2. cbn [bind]. split; [reflexivity|]. split; [cbn; lia|]. split.
  - intros e [<-|I]; [|apply E4; exact I]. eapply level_range; [|exact D2].
    assert (SQ : forall v, fin v /\ Rabs (val v) <= x_bound -> 0 <= val v * val v <= p2 41).
    { intros v (_ & B). split; [nra|]. apply Rle_trans with (x_bound * x_bound); [|unfold x_bound; cbn; lra]. replace (val v * val v) with (Rabs (val v) * Rabs (val v)) by (rewrite <- Rabs_mult; apply Rabs_pos_eq; nra). apply Rmult_le_compat; auto using Rabs_pos. }
    pose proof (SQ _ A0). pose proof (SQ _ A1). pose proof (SQ _ A2). pose proof (SQ _ A3).
    assert (P : 8 * p2 41 <= p2 45) by (change 45%Z with (4 + 41)%Z; rewrite bpow_plus; pose proof (bpow_gt_0 radix2 41); apply Rmult_le_compat_r; [lra|cbn; lra]).
    assert (P2 : p2 43 = 4 * p2 41) by (change 43%Z with (2 + 41)%Z; rewrite bpow_plus; reflexivity). lra.
  - intros k Hk. destruct (Z.eq_dec k 0) as [->|K0]; [exact D2|]. pose proof (E5 (k - 1)%Z ltac:(lia)) as A.
    assert (Z1 : forall B (b : B) l z, (1 <= z)%Z -> forall dd, znth (b :: l) z dd = znth l (z - 1) dd).
    { intros B b l z Hz dd. unfold znth. replace (Z.to_nat z) with (S (Z.to_nat (z - 1))) by lia. replace ((z <? 0)%Z) with false by lia. replace ((z - 1 <? 0)%Z) with false by lia. reflexivity. }
    rewrite Z1 by lia. replace (block_sum (x0 :: x1 :: x2 :: x3 :: r) k) with (block_sum r (k - 1)); [exact A|].
    assert (Z4 : forall i, (0 <= i)%Z -> znth (x0 :: x1 :: x2 :: x3 :: r) (4 * k + i) c0 = znth r (4 * (k - 1) + i) c0). { intros i Hi. rewrite !Z1 by lia. f_equal. lia. }
    unfold block_sum. cbv zeta. change (f32_dy 0 0) with c0. rewrite !Z4 by lia. reflexivity.
Qed.

(** ** The noise floor *)
Lemma ldexp_ok nan (x : f32) r : fin x -> p2 (-80) <= val x <= p2 60 -> (6 <= r <= 23)%Z ->
  exists y, ldexp32 nan x (- r) = Some y /\ fin y /\ val y = val x * p2 (- r).
Proof.
  intros F (L & U) Hr. destruct (bits_normal nan x F) as (E & f & HE & Hf & Eb & Ev); [apply Rle_trans with (p2 (-80)); [apply bpow_le; lia|exact L]|].
  assert (B : 0 <= IZR f / 2 ^ 23 < 1). { assert (0 <= IZR f <= 8388607) by (split; apply IZR_le; lia). split; lra. }
  assert (E1 : (46 <= E)%Z). { apply Z.nlt_ge. intros C. assert (p2 (E - 127) <= p2 (-82)) by (apply bpow_le; lia). assert (p2 (-82) * 4 = p2 (-80)) by (change (-80)%Z with (-82 + 2)%Z; rewrite bpow_plus; reflexivity). pose proof (bpow_gt_0 radix2 (E - 127)). nra. }
  assert (E2 : (E <= 188)%Z). { apply Z.nlt_ge. intros C. assert (p2 61 <= p2 (E - 127)) by (apply bpow_le; lia). assert (p2 60 < p2 61) by (apply bpow_lt; lia). pose proof (bpow_gt_0 radix2 60). nra. }
  unfold ldexp32. rewrite Eb. assert (D : ((E * 2 ^ 23 + f) / 2 ^ 23 mod 256 = E)%Z). { rewrite Z.div_add_l by lia. rewrite (Z.div_small f) by lia. rewrite Z.add_0_r. apply Z.mod_small. lia. }
  cbv zeta. rewrite D. replace (E =? 0)%Z with false by lia. replace (E * 2 ^ 23 + f <? 2 ^ 31)%Z with true by lia.
  replace (E * 2 ^ 23 + f + - r * 2 ^ 23)%Z with ((E - r) * 2 ^ 23 + f)%Z by lia. set (s := ((E - r) * 2 ^ 23 + f)%Z). assert (S : (0 <= s < 2 ^ 31)%Z) by (unfold s; lia).
  replace ((- 2 ^ 31 <=? s) && (s <? 2 ^ 31))%Z with true by lia. rewrite Z.mod_small by lia. destruct (bits_inv (E - r) f ltac:(lia) Hf) as (Fy & Vy). fold s in Fy, Vy.
  exists (f32_of_bits s). split; [reflexivity|]. split; [exact Fy|]. rewrite Vy, Ev, Rmult_assoc, <- bpow_plus. do 2 f_equal. lia.
Qed.


(** The maximum is null or not too small. *)
Lemma x_max_range x : Forall (fun v => fin v /\ Rabs (val v) <= x_bound) x -> let m := Bsqrt mode_NE (square_max x) in
  fin m /\ ((exists s, m = B754_zero s) \/ p2 (-80) <= val m) /\ val m <= p2 60.
Proof.
  intros H. cbv zeta. assert (HB : x_bound * x_bound <= p2 100) by (unfold x_bound; apply Rle_trans with (p2 60); [cbn; lra|apply bpow_le; lia]). assert (B0 : 0 <= x_bound) by (unfold x_bound; lra).
  destruct (max_fold x x_bound c0 eq_refl ltac:(right; reflexivity) H HB B0) as (F & P & _). fold (square_max x) in F, P. change (val c0) with 0 in P.
  pose proof (max_attained x x_bound c0 eq_refl H HB B0) as AT. fold (square_max x) in AT. cbv zeta in AT. change (val c0) with 0 in AT.
  destruct (sqrt_fin _ F P) as (F2 & V2). assert (U : val (square_max x) <= p2 60).
  { destruct AT as [->|(v & I & ->)]; [apply bpow_ge_0|]. rewrite Forall_forall in H. destruct (H v I) as (Fv & Bv). destruct (x_sq v Fv Bv) as ((_ & A) & A0). rewrite Rabs_pos_eq in A by exact A0. eapply Rle_trans; [exact A|]. rewrite Rmult_1_l. apply bpow_le. lia. }
  set (m2 := square_max x) in *. clearbody m2. clear AT H. split; [exact F2|]. split.
  - assert (M0 : (exists s, m2 = B754_zero s) \/ exists s m e Hb, m2 = B754_finite s m e Hb) by (destruct m2 as [s|s| |s m e Hb]; try discriminate F; [left; eauto|right; eauto 6]).
    destruct M0 as [(s & ->)|(s & m & e & Hb & E2)]; [left; exists s; reflexivity|right].
    destruct (units_ok m2 F) as (u & _ & Vu & _).
    assert (N0 : val m2 <> 0). { rewrite E2. unfold val. cbn [B2R]. intros C. apply eq_0_F2R in C. destruct s; discriminate C. }
    assert (P1 : p2 (-149) <= val m2).
    { assert (0 < val m2) by lra. assert (U1 : (1 <= u)%Z). { apply Z.lt_pred_le, lt_IZR. rewrite Vu. apply Rmult_lt_0_compat; [assumption|apply bpow_gt_0]. }
      apply IZR_le in U1. rewrite Vu in U1. apply Rmult_le_reg_r with (p2 149); [apply bpow_gt_0|]. rewrite <- bpow_plus. exact U1. }
    rewrite V2. apply Rle_trans with (p2 (-75)); [apply bpow_le; lia|].
    apply round_ge_generic; try typeclasses eauto; [apply generic_format_bpow; cbn; lia|].
    rewrite <- (sqrt_square (p2 (-75))) by apply bpow_ge_0. apply sqrt_le_1_alt. rewrite <- bpow_plus. eapply Rle_trans; [|exact P1]. apply bpow_le. lia.
  - rewrite V2. apply Rle_trans with (rnd32 (p2 60)); [apply round_le; try typeclasses eauto|].
    + apply Rle_trans with (sqrt (p2 60 * p2 60)); [apply sqrt_le_1_alt; assert (1 <= p2 60) by (change 1 with (p2 0); apply bpow_le; lia); nra|]. rewrite sqrt_square by apply bpow_ge_0. right. reflexivity.
    + right. apply round_generic; [typeclasses eauto|]. apply generic_format_bpow. unfold FLT_exp. cbn. lia.
Qed.

Lemma add_ge x y : fin x -> fin y -> 0 <= val y -> Rabs (rnd32 (val x + val y)) < p2 128 -> val x <= val (Add x y).
Proof. intros Fx Fy P H. destruct (add_val x y Fx Fy H) as (_ & ->). apply round_ge_generic; try typeclasses eauto; [apply fmt_val|lra]. Qed.
Lemma centroid_ok : forall x i k m0 m1 a, Forall (fun v => fin v /\ Rabs (val v) <= x_bound) x -> fin k -> val k = IZR i -> (0 <= i)%Z -> (i + zlen x <= 960)%Z -> (0 <= a)%Z -> (a + zlen x <= 2000)%Z ->
  bnd a 21 m0 -> bnd a 31 m1 -> 0 <= val m0 -> 0 <= val m1 ->
  let '(r0, r1) := centroid k m0 m1 x in bnd (a + zlen x) 21 r0 /\ bnd (a + zlen x) 31 r1 /\ 0 <= val r0 /\ val m1 <= val r1.
Proof.
  induction x as [|v x IH]; intros i k m0 m1 a H Fk Vk Hi Hl Ha Hal B0 B1 P0 P1; cbn [centroid].
  - unfold zlen. cbn [length]. rewrite Z.add_0_r. split; [exact B0|]. split; [exact B1|]. split; [exact P0|lra].
  - inversion H as [|? ? (Fv & Bv) Hx]; subst. replace (zlen (v :: x)) with (zlen x + 1)%Z in * by (unfold zlen; cbn [length]; lia). assert (0 <= zlen x)%Z by (unfold zlen; lia).
    assert (Fa : fin (Babs v) /\ val (Babs v) = Rabs (val v)) by (split; [unfold fin; rewrite is_finite_Babs; exact Fv|apply B2R_Babs]). destruct Fa as (Fa & Va). pose proof (Rabs_pos (val v)) as Pv.
    assert (Bd : bnd 1 21 (Babs v)). { split; [exact Fa|]. rewrite Va, Rabs_Rabsolu, Rmult_1_l. eapply Rle_trans; [exact Bv|]. unfold x_bound. cbn. lra. }
    assert (Ik : 0 <= IZR i <= 960) by (split; apply IZR_le; lia).
    assert (Q : Rabs (val (Babs v) * val k) <= IZR 1 * p2 31).
    { rewrite Va, Vk, Rabs_mult, Rabs_Rabsolu, (Rabs_pos_eq (IZR i)), Rmult_1_l by lra. apply Rle_trans with (x_bound * 960); [apply Rmult_le_compat; lra|]. unfold x_bound. cbn. lra. }
    destruct (rnd_bnd _ _ _ (kok1 31 ltac:(unfold eok; lia)) Q) as (Q1 & Q2). destruct (mul_val _ _ Fa Fk Q2) as (Fm & Vm).
    assert (Bm : bnd 1 31 (Mul (Babs v) k)) by (split; [exact Fm|rewrite Vm; exact Q1]).
    assert (Pm : 0 <= val (Mul (Babs v) k)) by (rewrite Vm; apply SnsProject.rnd_pos; rewrite Va, Vk; apply Rmult_le_pos; lra).
    destruct (bnd_add_pos a 1 21 m0 (Babs v) ltac:(unfold kok; lia) B0 Bd P0 ltac:(lra)) as (C0 & C0p).
    destruct (bnd_add_pos a 1 31 m1 (Mul (Babs v) k) ltac:(unfold kok; lia) B1 Bm P1 Pm) as (C1 & C1p).
    assert (G : val m1 <= val (Add m1 (Mul (Babs v) k))).
    { apply add_ge; try assumption; try apply B1. apply (rnd_bnd _ (a + 1) 31); [unfold kok; lia|]. eapply Rle_trans; [apply Rabs_triang|]. rewrite plus_IZR. destruct B1 as (_ & B1). destruct Bm as (_ & Bm). lra. }
    assert (Nk : fin (Add k (f32_dy 1 0)) /\ val (Add k (f32_dy 1 0)) = IZR (i + 1)).
    { destruct (dy_exact 1 0 ltac:(lia) ltac:(lia)) as (Fo & Vo). assert (Vo1 : val (f32_dy 1 0) = 1) by (rewrite Vo; cbn; ring).
      assert (R : rnd32 (val k + val (f32_dy 1 0)) = IZR (i + 1)). { rewrite Vk, Vo1, plus_IZR. apply round_generic; [typeclasses eauto|]. rewrite <- plus_IZR. replace (IZR (i + 1)) with (IZR (i + 1) * p2 0) by (cbn; ring). apply fmt_Zp; lia. }
      destruct (add_val k (f32_dy 1 0) Fk Fo) as (A & B); [rewrite R; rewrite Rabs_pos_eq by (apply IZR_le; lia); apply Rle_lt_trans with (p2 10); [apply Rle_trans with (IZR 960); [apply IZR_le; lia|cbn; lra]|apply bpow_lt; lia]|].
      split; [exact A|]. rewrite B. exact R. }
    destruct Nk as (Fn & Vn). specialize (IH (i + 1)%Z _ _ _ (a + 1)%Z Hx Fn Vn ltac:(lia) ltac:(lia) ltac:(lia) ltac:(lia) C0 C1 C0p C1p).
    destruct (centroid _ _ _ x) as [r0 r1]. replace (a + (zlen x + 1))%Z with (a + 1 + zlen x)%Z by lia. destruct IH as (I1 & I2 & I3 & I4). split; [exact I1|]. split; [exact I2|]. split; [exact I3|lra].
Qed.

Lemma low_bits_range dt x l : (0 <= dt <= 3)%Z -> Forall (fun v => fin v /\ Rabs (val v) <= x_bound) x -> (zlen x <= 960)%Z -> low_bits dt x = Some l -> (0 <= l <= 8)%Z.
Proof.
  intros Hd H Hl E. unfold low_bits in E. cbv zeta in E. destruct (dy_exact 2748779 38 ltac:(lia) ltac:(lia)) as (F5 & V5). set (e5 := f32_dy 2748779 38) in *.
  assert (E5 : 0 < val e5 <= 1) by (rewrite V5; cbn; lra). clearbody e5.
  assert (B5 : forall e, (0 <= e <= 100)%Z -> bnd 1 e e5). { intros e He. split; [exact F5|]. rewrite Rabs_pos_eq, Rmult_1_l by lra. apply Rle_trans with (p2 0); [cbn; lra|apply bpow_le; lia]. }
  assert (0 <= zlen x)%Z by (unfold zlen; lia).
  pose proof (centroid_ok x 0 c0 e5 e5 1 H eq_refl eq_refl ltac:(lia) ltac:(lia) ltac:(lia) ltac:(lia) (B5 21%Z ltac:(lia)) (B5 31%Z ltac:(lia)) ltac:(lra) ltac:(lra)) as C.
  destruct (centroid c0 e5 e5 x) as [m0 m1]. destruct C as ((F0 & B0) & (F1 & B1) & P0 & P1).
  destruct (f32_round _) as [m|] eqn:Er; [|discriminate]. cbn [bind] in E. unfold cint in E. destruct (_ && _)%bool; [|discriminate]. apply (f_equal (fun o => match o with Some v => v | None => 0%Z end)) in E; cbv beta iota in E; subst l.
  enough (Hm0 : (0 <= m)%Z) by (clear - Hm0; pose proof (Z.min_spec m 8); lia). unfold f32_round in Er. destruct (f32_units _) as [u|] eqn:Eu; [|discriminate]. cbn [bind] in Er. unfold F32Model.f32_int in Er. destruct (_ && _)%bool in Er; [|discriminate]. apply (f_equal (fun o => match o with Some v => v | None => 0%Z end)) in Er; cbv beta iota in Er; subst m.
  assert (U : (0 <= u)%Z); [|assert (0 <= (2 * Z.abs u + one) / (2 * one))%Z by (apply Z.div_pos; [pose proof (eq_refl : (0 <? one)%Z = true)|reflexivity]; lia); assert (0 <= Z.sgn u)%Z by lia; apply Z.mul_nonneg_nonneg; assumption].
  pose proof (units_inv _ _ Eu) as Fd. destruct (units_ok _ Fd) as (u' & Eu' & Vu & _). rewrite Eu in Eu'. injection Eu' as <-. apply le_IZR. rewrite Vu. apply Rmult_le_pos; [|apply bpow_ge_0].
  destruct (dy_exact 13421773 23 ltac:(lia) ltac:(lia)) as (Fs & Vs). assert (V16 : 0 <= val (f32_dy 13421773 23) <= 2) by (rewrite Vs; cbn; lra). destruct (of_int_ok (1 + dt) ltac:(lia)) as (Fi & Vi).
  assert (I1 : 1 <= IZR (1 + dt) <= 4) by (split; apply IZR_le; lia).
  assert (K : (1 + zlen x <= 961)%Z) by lia. apply IZR_le in K.
  assert (Q0 : Rabs (val (f32_dy 13421773 23) * val m0) <= IZR 1 * p2 40).
  { rewrite Rabs_mult, (Rabs_pos_eq (val (f32_dy _ _))), Rmult_1_l by lra. apply Rle_trans with (2 * (961 * p2 21)); [|cbn; lra]. apply Rmult_le_compat; [lra|apply Rabs_pos|lra|]. eapply Rle_trans; [exact B0|]. apply Rmult_le_compat_r; [apply bpow_ge_0|exact K]. }
  destruct (rnd_bnd _ _ _ (kok1 40 ltac:(unfold eok; lia)) Q0) as (_ & Q1). destruct (mul_val _ _ Fs F0 Q1) as (Fn & Vn).
  assert (R0 : Rabs (val (f32_of_int (1 + dt)) * val m1) <= IZR 1 * p2 50).
  { rewrite Vi, Rabs_mult, (Rabs_pos_eq (IZR _)), Rmult_1_l by lra. apply Rle_trans with (4 * (961 * p2 31)); [|cbn; lra]. apply Rmult_le_compat; [lra|apply Rabs_pos|lra|]. eapply Rle_trans; [exact B1|]. apply Rmult_le_compat_r; [apply bpow_ge_0|exact K]. }
  destruct (rnd_bnd _ _ _ (kok1 50 ltac:(unfold eok; lia)) R0) as (_ & R1). destruct (mul_val _ _ Fi F1 R1) as (Fd2 & Vd2).
  assert (Pn : 0 <= val (Mul (f32_dy 13421773 23) m0)) by (rewrite Vn; apply SnsProject.rnd_pos; apply Rmult_le_pos; lra).
  assert (Pd : val m1 <= val (Mul (f32_of_int (1 + dt)) m1)) by (rewrite Vd2, Vi; apply round_ge_generic; try typeclasses eauto; [apply fmt_val|]; rewrite <- (Rmult_1_l (val m1)) at 1; apply Rmult_le_compat_r; lra).
  set (n := Mul (f32_dy 13421773 23) m0) in *. set (d := Mul (f32_of_int (1 + dt)) m1) in *. clearbody n d.
  assert (D0 : 0 <= val n / val d) by (apply Rmult_le_pos; [exact Pn|left; apply Rinv_0_lt_compat; lra]).
  destruct (Rlt_or_le (Rabs (rnd32 (val n / val d))) (p2 128)) as [G|G].
  - destruct (div_val n d Fn ltac:(lra) G) as (_ & ->). apply SnsProject.rnd_pos. exact D0.
  - exfalso. pose proof (Bdiv_correct 24 128 _ _ mode_NE n d ltac:(unfold val in *; lra)) as C. cbn [round_mode] in C. rewrite Rlt_bool_false in C by exact G. unfold fin in Fd. fold (Div n d) in C. destruct (Div n d); try discriminate Fd; discriminate C.
Qed.

(** ** The noise floor *)
Lemma reg_bits_range dt sr nbytes : (6 <= reg_bits dt sr nbytes <= 23)%Z.
Proof. unfold reg_bits, clip. lia. Qed.
Lemma noise_floor_ok nan dt sr nbytes x l : (0 <= dt <= 3)%Z -> (is_hr sr = true) -> Forall (fun v => fin v /\ Rabs (val v) <= x_bound) x -> (zlen x <= 960)%Z ->
  let m := Bsqrt mode_NE (square_max x) in low_bits dt x = Some l ->
  exists nf, noise_floor nan dt sr nbytes x m = Some nf /\ fin nf /\ 0 <= val nf <= p2 43 /\
    Rabs (val nf - val m * p2 (- (reg_bits dt sr nbytes + l))) <= / 1000000 * (val m * p2 (- (reg_bits dt sr nbytes + l))).
Proof.
  intros Hd Hr H Hl. cbv zeta. intros El. pose proof (low_bits_range dt x l Hd H Hl El) as Rl. pose proof (reg_bits_range dt sr nbytes) as Rr. set (r := reg_bits dt sr nbytes) in *.
  destruct (x_max_range x H) as (Fm & Z0 & U). pose proof (x_max_attained x H) as MA. cbv zeta in MA. unfold noise_floor. rewrite Hr, El. cbn [bind]. fold r. clearbody r. set (m := Bsqrt mode_NE (square_max x)) in *.
  assert (M22 : val m <= p2 22).
  { destruct (Rle_or_lt (p2 (-50)) (val m)) as [C|C]; [|left; eapply Rlt_trans; [exact C|apply bpow_lt; lia]]. destruct (MA C) as (v & I & A). rewrite Forall_forall in H. destruct (H v I) as (_ & B). unfold x_bound in B. apply Rle_trans with 2000000; [lra|cbn; lra]. }
  clearbody m. clear MA.
  assert (Ee : fin (exp2_32 nan (f32_of_int (- l))) /\ Rabs (val (exp2_32 nan (f32_of_int (- l))) - p2 (- l)) <= 4 / 10000000 * p2 (- l)).
  { destruct (of_int_ok (- l) ltac:(lia)) as (Fi & Vi). assert (I : -8 <= IZR (- l) <= 0) by (split; apply IZR_le; lia). destruct (C48_exp2 nan (f32_of_int (- l)) Fi) as (A & B); [fold (val (f32_of_int (- l))); rewrite Vi; apply Rabs_le; lra|].
    split; [exact A|]. fold (val (f32_of_int (- l))) (val (exp2_32 nan (f32_of_int (- l)))) in B. rewrite Vi in B. replace (Rpower 2 (IZR (- l))) with (p2 (- l)) in B; [exact B|].
    rewrite <- (Z2Nat.id l) by lia. rewrite p2_pow, opp_IZR, Rpower_Ropp, <- INR_IZR_INZ, Rpower_pow by lra. reflexivity. }
  destruct Ee as (Fe & Ve). set (e := exp2_32 nan (f32_of_int (- l))) in *. clearbody e.
  assert (Pl : 0 < p2 (- l) <= 1) by (split; [apply bpow_gt_0|change 1 with (p2 0); apply bpow_le; lia]). assert (Be : 0 <= val e <= 2) by (apply Rabs_le_inv in Ve; lra).
  destruct Z0 as [(s & ->)|Lm].
  - rewrite ldexp_zero by (exists s; reflexivity). cbn [bind]. exists (Mul (B754_zero s) e). split; [reflexivity|]. change (val (B754_zero s)) with 0.
    assert (MZ : fin (Mul (B754_zero s) e) /\ val (Mul (B754_zero s) e) = 0) by (unfold fin in Fe; destruct e; try discriminate Fe; destruct s; split; reflexivity). destruct MZ as (FZ & ->). split; [exact FZ|].
    split; [split; [lra|apply bpow_ge_0]|]. rewrite Rmult_0_l, Rminus_0_r, Rabs_R0, Rmult_0_r. lra.
  - destruct (ldexp_ok nan m r Fm (conj Lm U) Rr) as (y & Ey & Fy & Vy). rewrite Ey. cbn [bind]. exists (Mul y e). split; [reflexivity|].
    assert (Pr : p2 (-23) <= p2 (- r) <= 1) by (split; [apply bpow_le; lia|change 1 with (p2 0); apply bpow_le; lia]).
    assert (Py : p2 (-103) <= val y <= p2 22). { rewrite Vy. split; [change (-103)%Z with (-80 + -23)%Z; rewrite bpow_plus; apply Rmult_le_compat; try apply bpow_ge_0; lra|]. rewrite <- (Rmult_1_r (p2 22)). pose proof (bpow_gt_0 radix2 (-80)). pose proof (bpow_gt_0 radix2 (- r)). apply Rmult_le_compat; lra. }
    pose proof (bpow_gt_0 radix2 (-103)) as P103.
    destruct (mul_err y e (p2 24) Fy Fe) as (Fp & Vp); [rewrite !Rabs_pos_eq by lra; replace (p2 24) with (p2 22 * 4) by (change 24%Z with (22 + 2)%Z; rewrite bpow_plus; reflexivity); apply Rle_trans with (p2 22 * 2); [apply Rmult_le_compat; lra|pose proof (bpow_gt_0 radix2 22); lra]|apply bpow_le; lia|].
    split; [exact Fp|]. rewrite (Rabs_pos_eq (val y)), (Rabs_pos_eq (val e)) in Vp by lra. replace (- (r + l))%Z with (- r + - l)%Z by lia. rewrite bpow_plus, <- Rmult_assoc, <- Vy.
    assert (Rs : rt <= / 10000000 * (val y * p2 (- l))).
    { apply Rle_trans with (/ 10000000 * (p2 (-103) * p2 (-8))); [|apply Rmult_le_compat_l; [lra|]; apply Rmult_le_compat; try apply bpow_ge_0; [lra|apply bpow_le; lia]]. rewrite <- bpow_plus. apply Rle_trans with (p2 (-24) * p2 (-111)); [unfold rt; rewrite <- bpow_plus; apply bpow_le; lia|]. apply Rmult_le_compat_r; [apply bpow_ge_0|cbn; lra]. }
    pose proof ru_b as U1. assert (Pp : 0 < val y * p2 (- l)) by (apply Rmult_lt_0_compat; lra).
    assert (V2 : Rabs (val y * val e - val y * p2 (- l)) <= 4 / 10000000 * (val y * p2 (- l))). { replace (val y * val e - val y * p2 (- l)) with (val y * (val e - p2 (- l))) by ring. rewrite Rabs_mult, Rabs_pos_eq by lra. nra. }
    assert (Q : Rabs (val (Mul y e) - val y * p2 (- l)) <= / 1000000 * (val y * p2 (- l))).
    { apply Rabs_le_inv in V2. apply Rabs_le_inv in Vp. assert (ru * (val y * val e) <= / 16000000 * (2 * (val y * p2 (- l)))) by (apply Rmult_le_compat; try lra; apply Rmult_le_pos; lra). apply Rabs_le. lra. }
    split; [|exact Q]. apply Rabs_le_inv in Q. assert (val y * p2 (- l) <= p2 22) by (rewrite <- (Rmult_1_r (p2 22)); apply Rmult_le_compat; lra).
    split; [lra|]. apply Rle_trans with (2 * p2 22); [lra|]. cbn. lra.
Qed.

(** ** The limit of the quantizer *)
Lemma fits32_hr sr m g : is_hr sr = true -> (-255 <= g <= 255)%Z -> fin m ->
  (fits32 sr m g = true -> val m < (1 + / 100000) * (32767 * 256 * ten g)) /\ (fits32 sr m g = false -> (1 - / 100000) * (32767 * 256 * ten g) <= val m).
Proof.
  intros Hr H F. unfold fits32. rewrite Hr. change (32767 * 2 ^ 8)%Z with 8388352%Z. destruct (gain32_ok g H) as (a & Ea & Fa & V). rewrite Ea.
  assert (F1 : fin (f32_of_int 8388352) /\ val (f32_of_int 8388352) = 8388352) by (apply of_int_ok; lia).
  destruct F1 as (F1 & V1). pose proof (ten_big g ltac:(lia)) as T. pose proof lim_2 as L2.
  assert (A0 : 0 <= val a <= 2 * ten g) by nra.
  destruct (mul_err (f32_of_int 8388352) a 1000000000000000000 F1 Fa) as (F3 & V3).
  { rewrite V1. rewrite (Rabs_pos_eq 8388352), (Rabs_pos_eq (val a)) by lra. nra. }
  { apply Rle_trans with (p2 60); [cbn; lra|apply bpow_le; lia]. }
  rewrite Bltb_correct by assumption. fold (val m) (val (Mul (f32_of_int 8388352) a)).
  apply Rabs_le_inv in V3. rewrite V1 in V3. rewrite (Rabs_pos_eq 8388352), (Rabs_pos_eq (val a)) in V3 by lra. pose proof ru_b as U.
  assert (T255 : / 10000000000 <= ten g). { pose proof (ten_opp g) as O. pose proof (ten_big (- g) ltac:(lia)) as T2. apply Rmult_le_reg_r with (ten (- g)); [lra|]. rewrite O. lra. }
  pose proof rt_small as (_ & R1). assert (R2 : rt <= ru * ten g).
  { apply Rle_trans with (ru * / 10000000000); [|apply Rmult_le_compat_l; lra]. apply Rle_trans with (ru * p2 (-34)); [|apply Rmult_le_compat_l; [lra|cbn; lra]]. unfold ru, rt. rewrite <- bpow_plus. apply bpow_le. lia. }
  destruct (Rlt_bool_spec (val m) (val (Mul (f32_of_int 8388352) a))) as [E|E]; split; intros D; try discriminate D; clear D.
  - nra.
  - nra.
Qed.

(** ** The count of bits *)
Lemma count_ok budget (off : f32) : (0 < budget <= 5000)%Z -> fin off -> Rabs (val off) <= 41 ->
  exists nbits, f32_trunc (Add (Add (f32_of_int budget) off) (f32_dy 1 1)) = Some nbits /\ (Z.abs nbits <= 5042)%Z /\
    (0 <= IZR budget + val off -> Rabs (IZR nbits - (IZR budget + val off)) <= 501 / 1000) /\ (IZR budget + val off < 0 -> (nbits <= 0)%Z).
Proof.
  intros Hbud Fo Bo. assert (Hoff : bnd 41 0 off). { split; [exact Fo|]. cbn. lra. }
  assert (HB : bnd (Z.abs budget) 0 (f32_of_int budget)) by (apply of_int_bnd; lia).
  assert (B1 : bnd 5041 0 (Add (f32_of_int budget) off)).
  { apply (bnd_add 5000 41); [unfold kok; lia| |exact Hoff]. apply (bnd_weak (Z.abs budget) 0); [exact HB|]. apply Rmult_le_compat_r; [apply bpow_ge_0|apply IZR_le; lia]. }
  destruct (dy_exact 1 1) as (Fh & Vh); [lia|lia|]. assert (Vh2 : val (f32_dy 1 1) = / 2) by (rewrite Vh; cbn; lra).
  destruct (of_int_ok budget ltac:(lia)) as (Fb & Vb).
  assert (BB : 1 <= IZR budget <= 5000) by (split; apply IZR_le; lia). apply Rabs_le_inv in Bo.
  assert (A1 : fin (Add (f32_of_int budget) off) /\ Rabs (val (Add (f32_of_int budget) off) - (IZR budget + val off)) <= / 2000).
  { destruct (rnd_bnd (val (f32_of_int budget) + val off) 5041 0 ltac:(unfold kok; lia)) as (_ & C1). { rewrite Vb. cbn. apply Rabs_le. lra. }
    destruct (add_val _ _ Fb Fo C1) as (F1 & V1). split; [exact F1|]. rewrite V1, Vb. eapply Rle_trans; [apply rnd_err|]. pose proof ru_b as U. pose proof rt_small as (_ & R1). pose proof p2_100 as R2.
    assert (ru * Rabs (IZR budget + val off) <= / 16000000 * 5041) by (apply Rmult_le_compat; try lra; [apply Rabs_pos|apply Rabs_le; lra]). lra. }
  destruct A1 as (F1 & V1). set (b1 := Add (f32_of_int budget) off) in *. clearbody b1. apply Rabs_le_inv in V1.
  assert (A2 : bnd 5042 0 (Add b1 (f32_dy 1 1)) /\ Rabs (val (Add b1 (f32_dy 1 1)) - (val b1 + / 2)) <= / 2000).
  { destruct (rnd_bnd (val b1 + val (f32_dy 1 1)) 5042 0 ltac:(unfold kok; lia)) as (C0 & C1). { rewrite Vh2. destruct B1 as (_ & B1). replace (IZR 5041 * p2 0) with 5041 in B1 by (cbn; ring). apply Rabs_le_inv in B1. cbn. apply Rabs_le. lra. }
    destruct (add_val _ _ F1 Fh C1) as (F2 & V2). split; [split; [exact F2|rewrite V2; exact C0]|]. rewrite V2, Vh2. eapply Rle_trans; [apply rnd_err|]. pose proof ru_b as U. pose proof rt_small as (_ & R1). pose proof p2_100 as R2.
    assert (ru * Rabs (val b1 + / 2) <= / 16000000 * 5043) by (apply Rmult_le_compat; try lra; [apply Rabs_pos|apply Rabs_le; lra]). lra. }
  destruct A2 as (B2 & V2). destruct (trunc_near _ 5042 ltac:(lia) B2) as (nbits & Et & Bt & T1 & T2). set (y := Add b1 (f32_dy 1 1)) in *. clearbody y. apply Rabs_le_inv in V2.
  exists nbits. split; [exact Et|]. split; [exact Bt|]. split.
  - intros P. specialize (T1 ltac:(lra)). apply Rabs_le. lra.
  - intros P. destruct (Rle_or_lt (val y) 0) as [Y|Y]; [apply T2; exact Y|]. specialize (T1 ltac:(lra)). apply Z.lt_succ_r, lt_IZR. rewrite succ_IZR. lra.
Qed.
Lemma ne_hr dt sr : (0 <= dt <= 3)%Z -> (5 <= sr < 7)%Z -> (c_ne dt sr mod 4 = 0 /\ 20 <= c_ne dt sr <= 960)%Z.
Proof.
  intros Hd Hs. assert (C : forallb (fun dt => forallb (fun sr => (c_ne dt sr mod 4 =? 0) && (20 <=? c_ne dt sr) && (c_ne dt sr <=? 960)) [5; 6])%Z [0; 1; 2; 3]%Z = true) by (vm_compute; reflexivity).
  rewrite forallb_forall in C. assert (I : In dt [0; 1; 2; 3]%Z) by (cbn [In]; lia). specialize (C dt I). cbv beta in C. rewrite forallb_forall in C. assert (J : In sr [5; 6]%Z) by (cbn [In]; lia). specialize (C sr J). cbv beta in C. lia.
Qed.
