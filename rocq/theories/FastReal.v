(** * Approximations of the logarithm and of the exponential, on real numbers *)
From Coq Require Import Reals ZArith List Bool Lia Lra Psatz.
From Coquelicot Require Import Coquelicot.
From Flocq Require Import Core.Core.
Local Open Scope R_scope.

(** ** ln (1 + t) between the partial sums of its series *)
Lemma incr_0 (f f' : R -> R) t : 0 <= t -> f 0 = 0 -> (forall c, 0 <= c <= t -> is_derive f c (f' c)) -> (forall c, 0 <= c <= t -> 0 <= f' c) -> 0 <= f t.
Proof.
  intros Ht F0 D P. destruct (Req_dec t 0) as [->|N]; [rewrite F0; lra|].
  destruct (MVT_cor2 f f' 0 t ltac:(lra)) as (c & E & C). { intros c C. apply is_derive_Reals, D, C. }
  specialize (P c ltac:(lra)). rewrite F0 in E. nra.
Qed.
Lemma ln1p_lo t : 0 <= t -> t - t ^ 2 / 2 + t ^ 3 / 3 - t ^ 4 / 4 <= ln (1 + t).
Proof.
  intros H. enough (0 <= ln (1 + t) - (t - t ^ 2 / 2 + t ^ 3 / 3 - t ^ 4 / 4)) by lra.
  apply (incr_0 (fun t => ln (1 + t) - (t - t ^ 2 / 2 + t ^ 3 / 3 - t ^ 4 / 4)) (fun t => t ^ 4 / (1 + t)) t H).
  - rewrite Rplus_0_r, ln_1. lra.
  - intros c C. auto_derive; [lra|]. field. lra.
  - intros c C. apply Rdiv_le_0_compat; [apply pow_le; lra|lra].
Qed.
Lemma ln1p_hi t : 0 <= t -> ln (1 + t) <= t - t ^ 2 / 2 + t ^ 3 / 3 - t ^ 4 / 4 + t ^ 5 / 5.
Proof.
  intros H. enough (0 <= (t - t ^ 2 / 2 + t ^ 3 / 3 - t ^ 4 / 4 + t ^ 5 / 5) - ln (1 + t)) by lra.
  apply (incr_0 (fun t => (t - t ^ 2 / 2 + t ^ 3 / 3 - t ^ 4 / 4 + t ^ 5 / 5) - ln (1 + t)) (fun t => t ^ 5 / (1 + t)) t H).
  - rewrite Rplus_0_r, ln_1. lra.
  - intros c C. auto_derive; [lra|]. field. lra.
  - intros c C. apply Rdiv_le_0_compat; [apply pow_le; lra|lra].
Qed.
Lemma ln1p_short t : 0 <= t -> t - t ^ 2 / 2 <= ln (1 + t) <= t.
Proof.
  intros H. split.
  - enough (0 <= ln (1 + t) - (t - t ^ 2 / 2)) by lra. apply (incr_0 (fun t => ln (1 + t) - (t - t ^ 2 / 2)) (fun t => t ^ 2 / (1 + t)) t H).
    + rewrite Rplus_0_r, ln_1. lra.
    + intros c C. auto_derive; [lra|]. field. lra.
    + intros c C. apply Rdiv_le_0_compat; [apply pow_le; lra|lra].
  - enough (0 <= t - ln (1 + t)) by lra. apply (incr_0 (fun t => t - ln (1 + t)) (fun t => t / (1 + t)) t H).
    + rewrite Rplus_0_r, ln_1. lra.
    + intros c C. auto_derive; [lra|]. field. lra.
    + intros c C. apply Rdiv_le_0_compat; lra.
Qed.

(** ** Integer bounds of 2^60 ln (n / 1024), n from 1024 *)
Definition dlo (n : Z) : Z := (2 ^ 60 * (12 * n ^ 3 - 6 * n ^ 2 + 4 * n - 3) / (12 * n ^ 4))%Z.
Definition dhi (n : Z) : Z := (2 ^ 60 * (60 * n ^ 4 - 30 * n ^ 3 + 20 * n ^ 2 - 15 * n + 12) / (60 * n ^ 5) + 1)%Z.
Definition c60 : R := 2 ^ 60.
Lemma c60_z : IZR (2 ^ 60) = c60. Proof. unfold c60. rewrite pow_IZR. f_equal. Qed.
Lemma c60_pos : 0 < c60. Proof. unfold c60. apply pow_lt. lra. Qed.
Lemma div_lo a b : (0 < b)%Z -> IZR (a / b) <= IZR a / IZR b.
Proof.
  intros H. assert (0 < IZR b) by (apply IZR_lt; exact H). apply Rmult_le_reg_r with (IZR b); [assumption|]. unfold Rdiv. rewrite Rmult_assoc, Rinv_l, Rmult_1_r by lra.
  rewrite <- mult_IZR. apply IZR_le. rewrite Z.mul_comm. apply Z.mul_div_le. exact H.
Qed.
Lemma div_hi a b : (0 < b)%Z -> IZR a / IZR b <= IZR (a / b + 1).
Proof.
  intros H. assert (0 < IZR b) by (apply IZR_lt; exact H). apply Rmult_le_reg_r with (IZR b); [assumption|]. unfold Rdiv. rewrite Rmult_assoc, Rinv_l, Rmult_1_r by lra.
  rewrite <- mult_IZR. apply IZR_le. pose proof (Z.mod_pos_bound a b H). pose proof (Z.div_mod a b ltac:(lia)). nia.
Qed.
Lemma dln n : (0 < n)%Z -> IZR (dlo n) <= c60 * ln (1 + / IZR n) <= IZR (dhi n).
Proof.
  intros H. assert (P : 0 < IZR n) by (apply IZR_lt; exact H). pose proof c60_pos as C. assert (I : 0 <= / IZR n) by (left; apply Rinv_0_lt_compat; exact P).
  pose proof (ln1p_lo _ I) as L. pose proof (ln1p_hi _ I) as U. split.
  - eapply Rle_trans; [apply div_lo; nia|]. eapply Rle_trans; [|apply Rmult_le_compat_l; [lra|exact L]]. right.
    rewrite !mult_IZR, c60_z, minus_IZR, plus_IZR, minus_IZR, !mult_IZR. change (n ^ 3)%Z with (n * (n * (n * 1)))%Z. change (n ^ 2)%Z with (n * (n * 1))%Z. change (n ^ 4)%Z with (n * (n * (n * (n * 1))))%Z.
    rewrite !mult_IZR. field. lra.
  - eapply Rle_trans; [|apply div_hi; nia]. eapply Rle_trans; [apply Rmult_le_compat_l; [lra|exact U]|]. right.
    rewrite !mult_IZR, c60_z, plus_IZR, minus_IZR, plus_IZR, minus_IZR, !mult_IZR. change (n ^ 3)%Z with (n * (n * (n * 1)))%Z. change (n ^ 2)%Z with (n * (n * 1))%Z. change (n ^ 4)%Z with (n * (n * (n * (n * 1))))%Z.
    change (n ^ 5)%Z with (n * (n * (n * (n * (n * 1)))))%Z. rewrite !mult_IZR. field. lra.
Qed.
Fixpoint ln_nodes (fuel : nat) (n lo hi : Z) (test : Z -> Z -> Z -> bool) : bool :=
  match fuel with
  | O => true
  | S f => test n lo hi && ln_nodes f (n + 1)%Z (lo + dlo n)%Z (hi + dhi n)%Z test
  end.
Lemma ln_nodes_ok test fuel : forall n lo hi, ln_nodes fuel n lo hi test = true -> (0 < n)%Z -> IZR lo <= c60 * ln (IZR n / 1024) <= IZR hi ->
  forall k, (n <= k < n + Z.of_nat fuel)%Z -> exists lo hi, test k lo hi = true /\ IZR lo <= c60 * ln (IZR k / 1024) <= IZR hi.
Proof.
  induction fuel as [|fuel IH]; intros n lo hi H Hn B k K; [lia|]. cbn [ln_nodes] in H. apply andb_prop in H. destruct H as (H1 & H2).
  destruct (Z.eq_dec k n) as [->|N]; [exists lo, hi; auto|]. apply (IH _ _ _ H2); [lia| |lia].
  pose proof (dln n Hn) as D. assert (P : 0 < IZR n) by (apply IZR_lt; exact Hn).
  assert (E : ln (IZR (n + 1) / 1024) = ln (IZR n / 1024) + ln (1 + / IZR n)).
  { rewrite <- ln_mult; [|lra|]. - f_equal. rewrite plus_IZR. field. lra. - assert (0 < / IZR n) by (apply Rinv_0_lt_compat; exact P). lra. }
  rewrite E, !plus_IZR, Rmult_plus_distr_l. lra.
Qed.
Lemma ln_start : IZR 0 <= c60 * ln (IZR 1024 / 1024) <= IZR 0.
Proof. replace (IZR 1024 / 1024) with 1 by lra. rewrite ln_1, Rmult_0_r. lra. Qed.

(** ** ln 2 *)
Definition ln2_lo : Z := 799144290325040000.
Definition ln2_hi : Z := 799144290325290000.
Definition ln2_test (n lo hi : Z) : bool := if (n =? 2048)%Z then ((ln2_lo <=? lo) && (hi <=? ln2_hi))%Z else true.
Lemma ln2_check : ln_nodes 1025 1024 0 0 ln2_test = true.
Proof. vm_compute. reflexivity. Qed.
Lemma ln2_bounds : IZR ln2_lo <= c60 * ln 2 <= IZR ln2_hi.
Proof.
  destruct (ln_nodes_ok _ _ _ _ _ ln2_check ltac:(lia) ln_start 2048 ltac:(lia)) as (lo & hi & T & B). change (ln2_test 2048 lo hi) with ((ln2_lo <=? lo)%Z && (hi <=? ln2_hi)%Z) in T.
  apply andb_prop in T. destruct T as (T1 & T2). apply Z.leb_le, IZR_le in T1. apply Z.leb_le, IZR_le in T2. replace (IZR 2048 / 1024) with 2 in B by lra. lra.
Qed.
Lemma ln2_dec : 0.6931471805 <= ln 2 <= 0.6931471806.
Proof.
  pose proof ln2_bounds as (L & U). pose proof c60_pos as C. unfold ln2_lo, ln2_hi in *. assert (E : c60 = 1152921504606846976) by (unfold c60; lra). rewrite E in *. lra.
Qed.

(** ** The polynomial of lc3_log2f, exact *)
Definition log2_p (m : R) : R :=
  IZR (-21723086) / 2 ^ 24 * m ^ 4 + IZR 85860592 / 2 ^ 24 * m ^ 3 + IZR (-141313696) / 2 ^ 24 * m ^ 2 + IZR 135989056 / 2 ^ 24 * m + IZR (-58815444) / 2 ^ 24.
Definition p_z (n : Z) : Z := (((-21723086 * n + 85860592 * 2 ^ 11) * n + -141313696 * 2 ^ 22) * n + 135989056 * 2 ^ 33) * n + -58815444 * 2 ^ 44.
Definition d_z (n : Z) : Z := ((4 * -21723086 * n + 3 * 85860592 * 2 ^ 11) * n + 2 * -141313696 * 2 ^ 22) * n + 135989056 * 2 ^ 33.
(** At the node m = n/2048: the error, and the change of the error times 1/2048, at most 1.185e-4. *)
Definition log2_test (n lo hi : Z) : bool :=
  let p := (p_z n + 2 ^ 68)%Z in let d := d_z n in
  let v0 := Z.max (Z.abs (ln2_lo * p - hi * 2 ^ 68)) (Z.abs (ln2_hi * p - lo * 2 ^ 68)) in
  let v1 := Z.max (Z.abs (ln2_lo * d * n - 2 ^ 128)) (Z.abs (ln2_hi * d * n - 2 ^ 128)) in
  ((0 <=? p) && (0 <=? d) && ((v0 * n + v1) * 20000000 <=? 2370 * n * 2 ^ 128))%Z.
Lemma log2_check : ln_nodes 1024 1024 0 0 log2_test = true.
Proof. vm_compute. reflexivity. Qed.
Definition log2_d (m : R) : R :=
  4 * (IZR (-21723086) / 2 ^ 24) * m ^ 3 + 3 * (IZR 85860592 / 2 ^ 24) * m ^ 2 + 2 * (IZR (-141313696) / 2 ^ 24) * m + IZR 135989056 / 2 ^ 24.
Lemma p_z_ok n : IZR (p_z n + 2 ^ 68) = 2 ^ 68 * (log2_p (IZR n / 2048) + 1).
Proof. unfold p_z, log2_p. rewrite !plus_IZR, !mult_IZR, !plus_IZR, !mult_IZR, !plus_IZR, !mult_IZR, !plus_IZR, !mult_IZR. change (2 ^ 68)%Z with 295147905179352825856%Z. change (2 ^ 44)%Z with 17592186044416%Z. change (2 ^ 33)%Z with 8589934592%Z. change (2 ^ 22)%Z with 4194304%Z. change (2 ^ 11)%Z with 2048%Z. field. Qed.
Lemma d_z_ok n : IZR (d_z n) = 2 ^ 57 * log2_d (IZR n / 2048).
Proof. unfold d_z, log2_d. rewrite !plus_IZR, !mult_IZR, !plus_IZR, !mult_IZR, !plus_IZR, !mult_IZR. change (2 ^ 33)%Z with 8589934592%Z. change (2 ^ 22)%Z with 4194304%Z. change (2 ^ 11)%Z with 2048%Z. field. Qed.
Lemma abs_max (a b : Z) (x : R) : IZR a <= x <= IZR b -> Rabs x <= IZR (Z.max (Z.abs a) (Z.abs b)).
Proof.
  intros (A & B). assert (IZR (Z.abs a) <= IZR (Z.max (Z.abs a) (Z.abs b))) by (apply IZR_le; lia). assert (IZR (Z.abs b) <= IZR (Z.max (Z.abs a) (Z.abs b))) by (apply IZR_le; lia).
  assert (- IZR (Z.abs a) <= IZR a) by (rewrite <- opp_IZR; apply IZR_le; lia). assert (IZR b <= IZR (Z.abs b)) by (apply IZR_le; lia). apply Rabs_le. lra.
Qed.
Lemma log2_p_ok m : / 2 <= m < 1 -> Rabs (log2_p m - ln m / ln 2) <= 0.000175.
Proof.
  intros Hm. set (n := Zfloor (2048 * m)). pose proof (Zfloor_lb (2048 * m)) as N1. pose proof (Zfloor_ub (2048 * m)) as N2. fold n in N1, N2.
  assert (Hn : (1024 <= n < 2048)%Z).
  { split; [apply Zfloor_lub; lra|]. apply lt_IZR. lra. }
  destruct (ln_nodes_ok _ _ _ _ _ log2_check ltac:(lia) ln_start n ltac:(lia)) as (lo & hi & T & B). unfold log2_test in T. cbv zeta in T.
  apply andb_prop in T. destruct T as (T & T3). apply andb_prop in T. destruct T as (T1 & T2). apply Z.leb_le in T1, T2, T3.
  set (v0 := Z.max (Z.abs (ln2_lo * (p_z n + 2 ^ 68) - hi * 2 ^ 68)) (Z.abs (ln2_hi * (p_z n + 2 ^ 68) - lo * 2 ^ 68))) in *.
  set (v1 := Z.max (Z.abs (ln2_lo * d_z n * n - 2 ^ 128)) (Z.abs (ln2_hi * d_z n * n - 2 ^ 128))) in *.
  apply IZR_le in T1, T2, T3. pose proof ln2_bounds as (L1 & L2). pose proof c60_pos as C. pose proof ln2_dec as L.
  set (m0 := IZR n / 2048) in *. assert (P : 1024 <= IZR n < 2048) by (split; [apply (IZR_le 1024)|apply (IZR_lt _ 2048)]; lia).
  set (X0 := ln 2 * (log2_p m0 + 1) - ln (IZR n / 1024)). set (X1 := ln 2 * log2_d m0 - / m0).
  assert (A0 : Rabs (c60 * 2 ^ 68 * X0) <= IZR v0).
  { apply abs_max. replace (c60 * 2 ^ 68 * X0) with ((c60 * ln 2) * IZR (p_z n + 2 ^ 68) - (c60 * ln (IZR n / 1024)) * 2 ^ 68) by (rewrite p_z_ok; unfold X0, m0; ring).
    rewrite !minus_IZR, !mult_IZR. change (IZR (2 ^ 68)) with (IZR 295147905179352825856). assert (E68 : 2 ^ 68 = 295147905179352825856) by lra. rewrite E68 in *.
    set (q := IZR (p_z n + 2 ^ 68)) in *. clearbody q. clear - T1 L1 L2 B. nra. }
  assert (A1 : Rabs (c60 * 2 ^ 57 * IZR n * X1) <= IZR v1).
  { apply abs_max. replace (c60 * 2 ^ 57 * IZR n * X1) with ((c60 * ln 2) * (IZR (d_z n) * IZR n) - IZR (2 ^ 128)).
    - rewrite !minus_IZR, !mult_IZR. assert (0 <= IZR (d_z n) * IZR n) by (apply Rmult_le_pos; lra). rewrite !(Rmult_assoc (IZR _) (IZR _) (IZR _)).
      split; (apply Rplus_le_compat_r; apply Rmult_le_compat_r; assumption).
    - rewrite d_z_ok. unfold X1. fold m0. replace (IZR (2 ^ 128)) with (c60 * 2 ^ 57 * (IZR n * / m0)); [ring|]. unfold m0, c60. change (2 ^ 128)%Z with 340282366920938463463374607431768211456%Z. field. lra. }
  assert (E128 : c60 * 2 ^ 68 = 2 ^ 128) by (unfold c60; rewrite <- pow_add; reflexivity).
  assert (E117 : c60 * 2 ^ 57 = 2 ^ 117) by (unfold c60; rewrite <- pow_add; reflexivity).
  rewrite E128, Rabs_mult, (Rabs_pos_eq (2 ^ 128)) in A0 by (apply pow_le; lra).
  rewrite E117, 2!Rabs_mult, (Rabs_pos_eq (2 ^ 117)), (Rabs_pos_eq (IZR n)) in A1 by (try apply pow_le; lra).
  assert (XX : Rabs X0 + Rabs X1 / 2048 <= 0.0001185).
  { rewrite !mult_IZR, plus_IZR, mult_IZR in T3. assert (E : IZR (2 ^ 128) = 2 ^ 128) by (rewrite pow_IZR; reflexivity). rewrite E in T3.
    assert (E2 : 2 ^ 117 * 2048 = 2 ^ 128) by (replace 2048 with (2 ^ 11) by lra; rewrite <- pow_add; reflexivity).
    assert (PP : 0 < 2 ^ 128) by (apply pow_lt; lra). apply Rmult_le_reg_l with (2 ^ 128 * IZR n * 20000000); [nra|].
    replace (2 ^ 128 * IZR n * 20000000 * (Rabs X0 + Rabs X1 / 2048)) with ((2 ^ 128 * Rabs X0 * IZR n + 2 ^ 117 * IZR n * Rabs X1) * 20000000) by (rewrite <- E2; field).
    apply Rle_trans with ((IZR v0 * IZR n + IZR v1) * 20000000); [apply Rmult_le_compat_r; [lra|]; apply Rplus_le_compat; [apply Rmult_le_compat_r; lra|exact A1]|].
    eapply Rle_trans; [exact T3|]. generalize (2 ^ 128) (IZR n). intros u v. clear. nra. }
  set (dl := m - m0). assert (D : 0 <= dl <= / 2048) by (unfold dl, m0; lra). assert (M0 : / 2 <= m0 <= 1) by (unfold m0; lra).
  set (t := dl / m0). assert (Ht : 0 <= t <= / 1024).
  { unfold t. split; [apply Rdiv_le_0_compat; lra|]. apply Rmult_le_reg_r with m0; [lra|]. unfold Rdiv. rewrite Rmult_assoc, Rinv_l by lra. lra. }
  set (R2 := IZR (-141313696) / 2 ^ 24 + IZR 85860592 / 2 ^ 24 * (3 * m0 + dl) + IZR (-21723086) / 2 ^ 24 * (6 * m0 ^ 2 + 4 * m0 * dl + dl ^ 2)).
  assert (R2b : Rabs R2 <= 9). { apply Rabs_le. unfold R2. clear - D M0. split; nra. }
  pose proof (ln1p_short t ltac:(lra)) as (S1 & S2).
  assert (E : ln 2 * (log2_p m + 1) - ln (2 * m) = X0 + X1 * dl + ln 2 * (dl ^ 2 * R2) + (t - ln (1 + t))).
  { replace (2 * m) with (IZR n / 1024 * (1 + t)); [|unfold t, dl; replace (IZR n / 1024) with (2 * m0) by (unfold m0; lra); field; lra].
    rewrite ln_mult by lra. unfold X0, X1, t. replace (log2_p m) with (log2_p m0 + log2_d m0 * dl + dl ^ 2 * R2); [field; lra|].
    replace m with (m0 + dl) by (unfold dl; ring). unfold log2_p, log2_d, R2. field. }
  assert (F : Rabs (ln 2 * (log2_p m + 1) - ln (2 * m)) <= 0.000121).
  { rewrite E. eapply Rle_trans; [apply Rabs_triang|]. eapply Rle_trans; [apply Rplus_le_compat_r, Rabs_triang|]. eapply Rle_trans; [apply Rplus_le_compat_r, Rplus_le_compat_r, Rabs_triang|].
    rewrite !Rabs_mult, (Rabs_pos_eq dl), (Rabs_pos_eq (ln 2)), (Rabs_pos_eq (dl ^ 2)), (Rabs_pos_eq (t - ln (1 + t))) by (try apply pow_le; lra).
    assert (Q1 : Rabs X1 * dl <= Rabs X1 / 2048) by (apply Rmult_le_compat_l; [apply Rabs_pos|lra]).
    assert (Q2 : ln 2 * (dl ^ 2 * Rabs R2) <= 0.7 * ((/ 2048) ^ 2 * 9)).
    { apply Rmult_le_compat; [lra|apply Rmult_le_pos; [apply pow_le; lra|apply Rabs_pos]|lra|]. apply Rmult_le_compat; [apply pow_le; lra|apply Rabs_pos|apply pow_incr; lra|exact R2b]. }
    assert (Q3 : t ^ 2 <= (/ 1024) ^ 2) by (apply pow_incr; lra). lra. }
  replace (log2_p m - ln m / ln 2) with ((ln 2 * (log2_p m + 1) - ln (2 * m)) * / ln 2) by (rewrite ln_mult by lra; field; lra).
  rewrite Rabs_mult, (Rabs_pos_eq (/ ln 2)) by (left; apply Rinv_0_lt_compat; lra). apply Rmult_le_reg_r with (ln 2); [lra|]. rewrite Rmult_assoc, Rinv_l, Rmult_1_r by lra. lra.
Qed.

(** ** The exponential near 0 *)
Lemma step_0 (f f' : R -> R) C r k : 0 <= C -> (forall c, is_derive f c (f' c)) -> f 0 = 0 -> (forall c, Rabs c <= r -> Rabs (f' c) <= C * Rabs c ^ k) ->
  forall c, Rabs c <= r -> Rabs (f c) <= C * Rabs c ^ S k.
Proof.
  intros P D F0 B c Hc. destruct (MVT_gen f 0 c f') as (x & X & E).
  - intros x _. apply D.
  - intros x _. apply continuity_pt_filterlim. apply (ex_derive_continuous f). exists (f' x). apply D.
  - rewrite F0 in E. replace (f c) with (f' x * c) by lra. rewrite Rabs_mult. cbn [pow].
    assert (X2 : Rabs x <= Rabs c). { unfold Rmin, Rmax in X. destruct (Rle_dec 0 c); unfold Rabs; repeat destruct Rcase_abs; lra. }
    apply Rle_trans with (C * Rabs x ^ k * Rabs c); [apply Rmult_le_compat_r; [apply Rabs_pos|apply B; lra]|].
    rewrite (Rmult_comm (Rabs c)), <- Rmult_assoc. apply Rmult_le_compat_r; [apply Rabs_pos|]. apply Rmult_le_compat_l; [exact P|]. apply pow_incr. split; [apply Rabs_pos|exact X2].
Qed.
Lemma exp_taylor u : Rabs u <= / 20 -> Rabs (exp u - (1 + u + u ^ 2 / 2 + u ^ 3 / 6 + u ^ 4 / 24 + u ^ 5 / 120)) <= 2 * Rabs u ^ 6.
Proof.
  assert (E0 : forall c, Rabs c <= / 20 -> Rabs (exp c) <= 2 * Rabs c ^ 0).
  { intros c H. rewrite Rabs_pos_eq by (left; apply exp_pos). cbn [pow]. rewrite Rmult_1_r. apply Rabs_le_between in H || apply Rabs_le_inv in H.
    apply Rle_trans with (exp (ln 2)); [|rewrite exp_ln; lra]. destruct (Rle_lt_or_eq_dec c (ln 2)) as [L| ->]; [pose proof ln2_dec; lra|left; apply exp_increasing; exact L|right; reflexivity]. }
  assert (E1 := step_0 (fun c => exp c - 1) (fun c => exp c) 2 (/ 20) 0 ltac:(lra) ltac:(intros c; auto_derive; [exact I|ring]) ltac:(cbv beta; rewrite exp_0; ring) E0). cbv beta in E1.
  assert (E2 := step_0 (fun c => exp c - (1 + c)) (fun c => exp c - 1) 2 (/ 20) 1 ltac:(lra) ltac:(intros c; auto_derive; [exact I|ring]) ltac:(cbv beta; rewrite exp_0; ring) E1). cbv beta in E2.
  assert (E3 := step_0 (fun c => exp c - (1 + c + c ^ 2 / 2)) (fun c => exp c - (1 + c)) 2 (/ 20) 2 ltac:(lra) ltac:(intros c; auto_derive; [exact I|field]) ltac:(cbv beta; rewrite exp_0; field) E2). cbv beta in E3.
  assert (E4 := step_0 (fun c => exp c - (1 + c + c ^ 2 / 2 + c ^ 3 / 6)) (fun c => exp c - (1 + c + c ^ 2 / 2)) 2 (/ 20) 3 ltac:(lra) ltac:(intros c; auto_derive; [exact I|field]) ltac:(cbv beta; rewrite exp_0; field) E3). cbv beta in E4.
  assert (E5 := step_0 (fun c => exp c - (1 + c + c ^ 2 / 2 + c ^ 3 / 6 + c ^ 4 / 24)) (fun c => exp c - (1 + c + c ^ 2 / 2 + c ^ 3 / 6)) 2 (/ 20) 4 ltac:(lra) ltac:(intros c; auto_derive; [exact I|field]) ltac:(cbv beta; rewrite exp_0; field) E4). cbv beta in E5.
  apply (step_0 (fun c => exp c - (1 + c + c ^ 2 / 2 + c ^ 3 / 6 + c ^ 4 / 24 + c ^ 5 / 120)) (fun c => exp c - (1 + c + c ^ 2 / 2 + c ^ 3 / 6 + c ^ 4 / 24)) 2 (/ 20) 5 ltac:(lra) ltac:(intros c; auto_derive; [exact I|field]) ltac:(cbv beta; rewrite exp_0; field) E5).
Qed.

(** ** The polynomial of lc3_exp2f, exact *)
Definition exp2_p (y : R) : R :=
  IZR 42131 / 2 ^ 22 * y ^ 4 + IZR 3721611 / 2 ^ 26 * y ^ 3 + IZR 16121479 / 2 ^ 26 * y ^ 2 + IZR 11629079 / 2 ^ 24 * y.
Lemma exp2_p_ok y : Rabs y <= / 16 -> Rabs (1 + exp2_p y - Rpower 2 y) <= 0.00000005.
Proof.
  intros H. pose proof ln2_dec as L. unfold Rpower. set (l := ln 2) in *. clearbody l.
  assert (U : Rabs (y * l) <= 0.0433217). { rewrite Rabs_mult, (Rabs_pos_eq l) by lra. apply Rle_trans with (/ 16 * l); [apply Rmult_le_compat_r; lra|lra]. }
  pose proof (exp_taylor (y * l) ltac:(lra)) as E. 
  assert (E6 : 2 * Rabs (y * l) ^ 6 <= 0.0000000134). { apply Rle_trans with (2 * 0.0433217 ^ 6); [apply Rmult_le_compat_l; [lra|]; apply pow_incr; split; [apply Rabs_pos|exact U]|lra]. }
  set (X := exp (y * l)) in *. clearbody X.
  assert (K : forall k, Rabs (y ^ k) <= (/ 16) ^ k). { intros k. rewrite <- RPow_abs. apply pow_incr. split; [apply Rabs_pos|exact H]. }
  pose proof (K 2%nat) as K2. pose proof (K 3%nat) as K3. pose proof (K 4%nat) as K4. pose proof (K 5%nat) as K5. clear K.
  assert (L2 : 0.48045301 <= l * l <= 0.48045302) by nra. assert (L3 : 0.33302465 <= l * l * l <= 0.33302466) by nra. assert (L4 : 0.23083509 <= l * l * l * l <= 0.2308351) by nra. assert (L5 : 0.16 <= l * l * l * l * l <= 0.1600027) by nra.
  set (D := 1 + exp2_p y - (1 + y * l + (y * l) ^ 2 / 2 + (y * l) ^ 3 / 6 + (y * l) ^ 4 / 24 + (y * l) ^ 5 / 120)).
  assert (ED : D = (IZR 11629079 / 2 ^ 24 - l) * y + (IZR 16121479 / 2 ^ 26 - l * l / 2) * y ^ 2 + (IZR 3721611 / 2 ^ 26 - l * l * l / 6) * y ^ 3 + (IZR 42131 / 2 ^ 22 - l * l * l * l / 24) * y ^ 4 + (- (l * l * l * l * l) / 120) * y ^ 5).
  { unfold D, exp2_p. field. }
  replace (1 + exp2_p y - X) with (D - (X - (1 + y * l + (y * l) ^ 2 / 2 + (y * l) ^ 3 / 6 + (y * l) ^ 4 / 24 + (y * l) ^ 5 / 120))) by (unfold D; ring).
  eapply Rle_trans; [apply Rabs_triang|]. rewrite Rabs_Ropp. rewrite ED. clear ED D.
  assert (T : forall a b A B, Rabs a <= A -> Rabs b <= B -> Rabs (a * b) <= A * B). { intros. rewrite Rabs_mult. apply Rmult_le_compat; auto using Rabs_pos. }
  assert (T1 := T (IZR 11629079 / 2 ^ 24 - l) y 0.00000006 _ ltac:(apply Rabs_le; split; lra) H).
  assert (T2 := T (IZR 16121479 / 2 ^ 26 - l * l / 2) (y ^ 2) 0.0000023 _ ltac:(apply Rabs_le; split; lra) K2).
  assert (T3 := T (IZR 3721611 / 2 ^ 26 - l * l * l / 6) (y ^ 3) 0.000048 _ ltac:(apply Rabs_le; split; lra) K3).
  assert (T4 := T (IZR 42131 / 2 ^ 22 - l * l * l * l / 24) (y ^ 4) 0.00043 _ ltac:(apply Rabs_le; split; lra) K4).
  assert (T5 := T (- (l * l * l * l * l) / 120) (y ^ 5) 0.00134 _ ltac:(apply Rabs_le; split; lra) K5).
  match goal with |- Rabs (?a + ?b + ?c + ?d + ?e) + _ <= _ => assert (TT : Rabs (a + b + c + d + e) <= Rabs a + Rabs b + Rabs c + Rabs d + Rabs e) by (repeat (eapply Rle_trans; [apply Rabs_triang|apply Rplus_le_compat_r]); lra) end.
  lra.
Qed.

(** ** ln 10, and the table of lc3_db_q16 *)
Definition ln1u25_lo : Z := 257266998900000000.
Definition ln1u25_hi : Z := 257266998950000000.
Definition ln1u25_test (n lo hi : Z) : bool := if (n =? 1280)%Z then ((ln1u25_lo <=? lo) && (hi <=? ln1u25_hi))%Z else true.
Lemma ln1u25_check : ln_nodes 257 1024 0 0 ln1u25_test = true.
Proof. vm_compute. reflexivity. Qed.
Lemma ln10_bounds : IZR (3 * ln2_lo + ln1u25_lo) <= c60 * ln 10 <= IZR (3 * ln2_hi + ln1u25_hi).
Proof.
  destruct (ln_nodes_ok _ _ _ _ _ ln1u25_check ltac:(lia) ln_start 1280 ltac:(lia)) as (lo & hi & T & B). change (ln1u25_test 1280 lo hi) with ((ln1u25_lo <=? lo)%Z && (hi <=? ln1u25_hi)%Z) in T.
  apply andb_prop in T. destruct T as (T1 & T2). apply Z.leb_le, IZR_le in T1. apply Z.leb_le, IZR_le in T2.
  assert (E : ln 10 = 3 * ln 2 + ln (IZR 1280 / 1024)).
  { replace 10 with (2 * 2 * 2 * (IZR 1280 / 1024)) by lra. rewrite 3!ln_mult by lra. ring. }
  pose proof ln2_bounds as L. rewrite E, !plus_IZR, !mult_IZR. lra.
Qed.
Lemma ln10_dec : 2.302585092 <= ln 10 <= 2.302585094.
Proof.
  pose proof ln10_bounds as (L & U). pose proof c60_pos as C. unfold ln2_lo, ln2_hi, ln1u25_lo, ln1u25_hi in *. assert (E : c60 = 1152921504606846976) by (unfold c60; lra). rewrite E in *. cbn in L, U. lra.
Qed.
