(** * Sums, roots of unity, and cosine transforms *)
From Coq Require Import Reals ZArith List Bool Lia Lra ZifyBool.
From Verif Require Import MdctSpec.
Local Open Scope R_scope.

(** ** Sums *)
Lemma sum_to_ext n f g : (forall i, (0 <= i < Z.of_nat n)%Z -> f i = g i) -> sum_to n f = sum_to n g.
Proof.
  induction n as [|n IH]; intros H; cbn [sum_to]; [reflexivity|]. rewrite IH by (intros; apply H; lia). rewrite H by lia. reflexivity.
Qed.
Lemma sum_to_add n f g : sum_to n (fun i => f i + g i) = sum_to n f + sum_to n g.
Proof. induction n as [|n IH]; cbn [sum_to]; [|rewrite IH]; ring. Qed.
Lemma sum_to_scal n c f : sum_to n (fun i => c * f i) = c * sum_to n f.
Proof. induction n as [|n IH]; cbn [sum_to]; [|rewrite IH]; ring. Qed.
Lemma sum_to_zero n : sum_to n (fun _ => 0) = 0.
Proof. induction n as [|n IH]; cbn [sum_to]; [|rewrite IH]; ring. Qed.
Lemma sum_to_app n m f : sum_to (n + m) f = sum_to n f + sum_to m (fun i => f (Z.of_nat n + i)%Z).
Proof.
  induction m as [|m IH]; cbn [sum_to]; [rewrite Nat.add_0_r; ring|]. rewrite Nat.add_succ_r. cbn [sum_to]. rewrite IH.
  replace (Z.of_nat (n + m)) with (Z.of_nat n + Z.of_nat m)%Z by lia. ring.
Qed.
Lemma sum_to_swap n m f : sum_to n (fun i => sum_to m (fun j => f i j)) = sum_to m (fun j => sum_to n (fun i => f i j)).
Proof.
  induction n as [|n IH]; cbn [sum_to]; [symmetry; apply sum_to_zero|]. rewrite IH, <- sum_to_add. reflexivity.
Qed.
Lemma sum_to_split p L f : sum_to (p * L) f = sum_to p (fun q => sum_to L (fun m => f (q + Z.of_nat p * m)%Z)).
Proof.
  induction L as [|L IH].
  - rewrite Nat.mul_0_r. cbn [sum_to]. symmetry. apply sum_to_zero.
  - rewrite Nat.mul_succ_r, sum_to_app, IH. cbn [sum_to]. rewrite sum_to_add. f_equal. apply sum_to_ext. intros i _. f_equal. lia.
Qed.
Lemma sum_to_rev n f : sum_to n f = sum_to n (fun i => f (Z.of_nat n - 1 - i)%Z).
Proof.
  revert f. induction n as [|n IH]; intros f; [reflexivity|]. change (S n) with (1 + n)%nat at 1. rewrite sum_to_app. cbn [sum_to]. rewrite IH.
  replace (f (Z.of_nat 0)) with (f (Z.of_nat (S n) - 1 - Z.of_nat n)%Z) by (f_equal; lia). rewrite Rplus_0_l, Rplus_comm. f_equal.
  apply sum_to_ext. intros i Hi. f_equal. lia.
Qed.
Lemma sum_to_delta n f m : (0 <= m < Z.of_nat n)%Z -> (forall i, (0 <= i < Z.of_nat n)%Z -> i <> m -> f i = 0) -> sum_to n f = f m.
Proof.
  induction n as [|n IH]; intros Hm H; [lia|]. cbn [sum_to]. destruct (Z.eq_dec m (Z.of_nat n)) as [->|N].
  - rewrite (sum_to_ext n f (fun _ => 0)) by (intros; apply H; lia). rewrite sum_to_zero. ring.
  - rewrite IH by (try lia; intros; apply H; lia). rewrite (H (Z.of_nat n)) by lia. ring.
Qed.

Lemma sum_ext n f g : (forall i, (0 <= i < n)%Z -> f i = g i) -> sum n f = sum n g.
Proof. intros H. apply sum_to_ext. intros i Hi. apply H. lia. Qed.
Lemma sum_add n f g : sum n (fun i => f i + g i) = sum n f + sum n g.
Proof. apply sum_to_add. Qed.
Lemma sum_scal n c f : sum n (fun i => c * f i) = c * sum n f.
Proof. apply sum_to_scal. Qed.
Lemma sum_sub n f g : sum n (fun i => f i - g i) = sum n f - sum n g.
Proof.
  unfold Rminus. rewrite <- (Rmult_1_l (sum n g)), Ropp_mult_distr_l, <- sum_scal, <- sum_add. apply sum_ext. intros. ring.
Qed.
Lemma sum_app n m f : (0 <= n)%Z -> (0 <= m)%Z -> sum (n + m) f = sum n f + sum m (fun i => f (n + i)%Z).
Proof. intros Hn Hm. unfold sum. rewrite Z2Nat.inj_add, sum_to_app by lia. rewrite Z2Nat.id by lia. reflexivity. Qed.
Lemma sum_swap n m f : sum n (fun i => sum m (fun j => f i j)) = sum m (fun j => sum n (fun i => f i j)).
Proof. apply sum_to_swap. Qed.
Lemma sum_split p L f : (0 <= p)%Z -> (0 <= L)%Z -> sum (p * L) f = sum p (fun q => sum L (fun m => f (q + p * m)%Z)).
Proof. intros Hp HL. unfold sum. rewrite Z2Nat.inj_mul, sum_to_split by lia. rewrite Z2Nat.id by lia. reflexivity. Qed.
Lemma sum_rev n f : (0 <= n)%Z -> sum n f = sum n (fun i => f (n - 1 - i)%Z).
Proof. intros Hn. unfold sum. rewrite sum_to_rev, Z2Nat.id by lia. reflexivity. Qed.
Lemma sum_delta n f m : (0 <= m < n)%Z -> (forall i, (0 <= i < n)%Z -> i <> m -> f i = 0) -> sum n f = f m.
Proof. intros Hm H. apply sum_to_delta; [lia|]. intros i Hi. apply H. lia. Qed.
Lemma sum_2 f : sum 2 f = f 0%Z + f 1%Z.
Proof. cbv [sum sum_to Z.to_nat Pos.to_nat Pos.iter_op Nat.add]. cbn. ring. Qed.
Lemma sum_3 f : sum 3 f = f 0%Z + f 1%Z + f 2%Z.
Proof. cbv [sum sum_to Z.to_nat Pos.to_nat Pos.iter_op Nat.add]. cbn. ring. Qed.
Lemma sum_5 f : sum 5 f = f 0%Z + f 1%Z + f 2%Z + f 3%Z + f 4%Z.
Proof. cbv [sum sum_to Z.to_nat Pos.to_nat Pos.iter_op Nat.add]. cbn. ring. Qed.
(** Even and odd indexes, the odd ones from the end. *)
Lemma sum_even_odd P f : (0 <= P)%Z -> sum (2 * P) f = sum P (fun j => f (2 * j)%Z + f (2 * P - 1 - 2 * j)%Z).
Proof.
  intros HP. rewrite sum_split by lia. rewrite sum_2, sum_add. f_equal.
  rewrite sum_rev by lia. apply sum_ext. intros i Hi. cbv beta. f_equal. lia.
Qed.
(** Two halves, the first from its end. *)
Lemma sum_halves P f : (0 <= P)%Z -> sum (2 * P) f = sum P (fun m => f (P - 1 - m)%Z + f (P + m)%Z).
Proof.
  intros HP. replace (2 * P)%Z with (P + P)%Z by lia. rewrite sum_app, sum_add by lia. f_equal. rewrite sum_rev by lia. reflexivity.
Qed.

(** From both ends. *)
Lemma sum_ends P f : (0 <= P)%Z -> sum (2 * P) f = sum P (fun m => f m + f (2 * P - 1 - m)%Z).
Proof.
  intros HP. replace (2 * P)%Z with (P + P)%Z at 1 by lia. rewrite sum_app, sum_add by lia. f_equal. rewrite sum_rev by lia.
  apply sum_ext. intros i Hi. cbv beta. f_equal. lia.
Qed.

(** ** Angles *)
Lemma cos_2kpi x k : cos (x + 2 * PI * IZR k) = cos x.
Proof.
  destruct (Z_le_gt_dec 0 k) as [H|H].
  - rewrite <- (cos_period x (Z.to_nat k)). f_equal. rewrite INR_IZR_INZ, Z2Nat.id by lia. ring.
  - rewrite <- (cos_period (x + 2 * PI * IZR k) (Z.to_nat (- k))). f_equal. rewrite INR_IZR_INZ, Z2Nat.id, opp_IZR by lia. ring.
Qed.
Lemma sin_2kpi x k : sin (x + 2 * PI * IZR k) = sin x.
Proof.
  destruct (Z_le_gt_dec 0 k) as [H|H].
  - rewrite <- (sin_period x (Z.to_nat k)). f_equal. rewrite INR_IZR_INZ, Z2Nat.id by lia. ring.
  - rewrite <- (sin_period (x + 2 * PI * IZR k) (Z.to_nat (- k))). f_equal. rewrite INR_IZR_INZ, Z2Nat.id, opp_IZR by lia. ring.
Qed.
Lemma sin_kpi k : sin (PI * IZR k) = 0.
Proof.
  destruct (Z.Even_or_Odd k) as [[m ->]|[m ->]].
  - rewrite mult_IZR. replace (PI * (2 * IZR m)) with (0 + 2 * PI * IZR m) by ring. rewrite sin_2kpi. apply sin_0.
  - rewrite plus_IZR, mult_IZR. replace (PI * (2 * IZR m + 1)) with (PI + 2 * PI * IZR m) by ring. rewrite sin_2kpi. apply sin_PI.
Qed.
Lemma cos_pi_minus x : cos (PI - x) = - cos x.
Proof. rewrite cos_minus, cos_PI, sin_PI. ring. Qed.
Lemma cos_pi2_minus x : cos (PI / 2 - x) = sin x.
Proof. apply cos_shift. Qed.
Lemma IZR_nz k : (k <> 0)%Z -> IZR k <> 0.
Proof. intros H E. apply H. apply eq_IZR. exact E. Qed.

(** ** Stages of the FFT
    [stage n L]: [n] interleaved transforms of [L] points. *)
Definition cplx : Type := R * R.
Definition term (P k m : Z) (x : cplx) : cplx :=
  (fst x * cos (dft_angle P k m) + snd x * sin (dft_angle P k m), snd x * cos (dft_angle P k m) - fst x * sin (dft_angle P k m)).
Definition csum (n : Z) (f : Z -> cplx) : cplx := (sum n (fun i => fst (f i)), sum n (fun i => snd (f i))).
Definition stage (n L : Z) (x y : Z -> cplx) : Prop :=
  forall i k, (0 <= i < n)%Z -> (0 <= k < L)%Z -> y (i * L + k)%Z = csum L (fun m => term L k m (x (i + n * m)%Z)).

Lemma csum_ext n f g : (forall i, (0 <= i < n)%Z -> f i = g i) -> csum n f = csum n g.
Proof. intros H. unfold csum. f_equal; apply sum_ext; intros i Hi; rewrite H by exact Hi; reflexivity. Qed.
Lemma csum_split p L f : (0 <= p)%Z -> (0 <= L)%Z -> csum (p * L) f = csum p (fun q => csum L (fun m => f (q + p * m)%Z)).
Proof. intros Hp HL. unfold csum. cbn [fst snd]. rewrite !sum_split by assumption. reflexivity. Qed.
Lemma term_csum P k m n f : term P k m (csum n f) = csum n (fun i => term P k m (f i)).
Proof.
  unfold term, csum. cbn [fst snd]. f_equal.
  - rewrite sum_add. f_equal; rewrite (Rmult_comm (sum _ _)), <- sum_scal; apply sum_ext; intros; ring.
  - rewrite sum_sub. f_equal; rewrite (Rmult_comm (sum _ _)), <- sum_scal; apply sum_ext; intros; ring.
Qed.
Lemma term_term P k m P' k' m' P'' k'' m'' x : (exists u, dft_angle P k m + dft_angle P' k' m' = dft_angle P'' k'' m'' + 2 * PI * IZR u) ->
  term P k m (term P' k' m' x) = term P'' k'' m'' x.
Proof.
  intros (u & Hu). unfold term. cbn [fst snd].
  rewrite <- (cos_2kpi (dft_angle P'' k'' m'') u), <- (sin_2kpi (dft_angle P'' k'' m'') u), <- Hu, cos_plus, sin_plus. f_equal; ring.
Qed.

Lemma stage_step p L n x y y' : (0 < p)%Z -> (0 < L)%Z -> stage (p * n) L x y ->
  (forall i r j, (0 <= i < n)%Z -> (0 <= r < p)%Z -> (0 <= j < L)%Z ->
    y' (i * (p * L) + r * L + j)%Z = csum p (fun q => term (p * L) (r * L + j) q (y ((i + q * n) * L + j)%Z))) ->
  stage n (p * L) x y'.
Proof.
  intros Hp HL Hs Hy i k Hi Hk.
  assert (Hj : (0 <= k mod L < L)%Z) by (apply Z.mod_pos_bound; lia).
  assert (Hr : (0 <= k / L < p)%Z) by (split; [apply Z.div_pos; lia|apply Z.div_lt_upper_bound; lia]).
  assert (Ek : (k = k / L * L + k mod L)%Z) by (rewrite (Z.mul_comm _ L); apply Z.div_mod; lia).
  rewrite Ek at 1. rewrite Z.add_assoc, Hy by assumption. rewrite csum_split by lia. apply csum_ext. intros q Hq.
  rewrite <- Ek. rewrite (Hs (i + q * n)%Z (k mod L)%Z) by nia. rewrite term_csum. apply csum_ext. intros m Hm.
  replace (i + q * n + p * n * m)%Z with (i + n * (q + p * m))%Z by ring. apply term_term.
  exists (- (k / L * m))%Z. unfold dft_angle. rewrite opp_IZR, !mult_IZR.
  replace (IZR (k mod L)) with (IZR k - IZR (k / L) * IZR L) by (rewrite Ek at 1; rewrite plus_IZR, mult_IZR; ring).
  rewrite plus_IZR, mult_IZR. field. split; apply IZR_nz; lia.
Qed.

(** ** Discrete cosine transform of type IV *)
Definition kern4 (N n k : Z) : R := cos (PI / IZR N * (IZR n + 1 / 2) * (IZR k + 1 / 2)).
Definition dct4 (N : Z) (x : Z -> R) (k : Z) : R := sqrt (2 / IZR N) * sum N (fun n => x n * kern4 N n k).

Lemma sum_cos_zero N r : (0 < N)%Z -> (- (2 * N) < r < 2 * N)%Z -> r <> 0%Z -> sum N (fun k => cos (PI / IZR N * IZR r * (IZR k + 1 / 2))) = 0.
Proof.
  intros HN Hr Hz. set (t := PI / IZR N * IZR r).
  assert (PN : 0 < IZR N) by (apply IZR_lt; lia).
  assert (Hs : sin (t / 2) <> 0).
  { assert (B : forall u, (0 < u < 2 * N)%Z -> 0 < sin (PI / IZR N * IZR u / 2)).
    { intros u Hu. assert (0 < IZR u < 2 * IZR N) by (rewrite <- (mult_IZR 2); split; apply IZR_lt; lia). pose proof PI_RGT_0. apply sin_gt_0.
      - apply Rmult_lt_0_compat; [|lra]. apply Rmult_lt_0_compat; [|lra]. apply Rdiv_lt_0_compat; lra.
      - replace (PI / IZR N * IZR u / 2) with (PI * (IZR u / (2 * IZR N))) by (field; lra). rewrite <- (Rmult_1_r PI) at 2.
        apply Rmult_lt_compat_l; [lra|]. apply (Rmult_lt_reg_r (2 * IZR N)); [lra|]. unfold Rdiv. rewrite Rmult_assoc, Rinv_l by lra. lra. }
    destruct (Z_lt_le_dec 0 r) as [P|P].
    - specialize (B r ltac:(lia)). fold t in B. lra.
    - specialize (B (- r)%Z ltac:(lia)). rewrite opp_IZR in B. replace (PI / IZR N * - IZR r / 2) with (- (t / 2)) in B by (unfold t; field; lra). rewrite sin_neg in B. lra. }
  apply (Rmult_eq_reg_l (2 * sin (t / 2))); [|lra]. rewrite Rmult_0_r, <- sum_scal.
  assert (G : forall n, sum_to n (fun k => 2 * sin (t / 2) * cos (t * (IZR k + 1 / 2))) = sin (t * INR n)).
  { induction n as [|n IH]; cbn [sum_to]; [cbn [INR]; rewrite Rmult_0_r, sin_0; reflexivity|]. rewrite IH, <- INR_IZR_INZ, S_INR.
    replace (t * INR n) with (t * (INR n + 1 / 2) - t / 2) by field. replace (t * (INR n + 1)) with (t * (INR n + 1 / 2) + t / 2) by field.
    rewrite sin_minus, sin_plus. ring. }
  unfold sum. rewrite G, INR_IZR_INZ, Z2Nat.id by lia. unfold t. replace (PI / IZR N * IZR r * IZR N) with (PI * IZR r) by (field; lra). apply sin_kpi.
Qed.

Lemma kern4_orth N n m : (0 < N)%Z -> (0 <= n < N)%Z -> (0 <= m < N)%Z ->
  sum N (fun k => kern4 N n k * kern4 N m k) = if Z.eq_dec n m then IZR N / 2 else 0.
Proof.
  intros HN Hn Hm.
  rewrite (sum_ext _ _ (fun k => 1 / 2 * (cos (PI / IZR N * IZR (n - m) * (IZR k + 1 / 2)) + cos (PI / IZR N * IZR (n + m + 1) * (IZR k + 1 / 2))))).
  - rewrite sum_scal, sum_add, (sum_cos_zero N (n + m + 1)) by lia. destruct (Z.eq_dec n m) as [->|D].
    + rewrite Z.sub_diag. rewrite (sum_ext _ _ (fun _ => 1)).
      * assert (G : forall k, sum_to k (fun _ => 1) = INR k) by (induction k as [|k IH]; [reflexivity|]; cbn [sum_to]; rewrite IH, S_INR; reflexivity).
        unfold sum. rewrite G, INR_IZR_INZ, Z2Nat.id by lia. field.
      * intros. rewrite Rmult_0_r, Rmult_0_l. apply cos_0.
    + rewrite sum_cos_zero by lia. ring.
  - intros k _. unfold kern4. rewrite minus_IZR, !plus_IZR.
    set (a := PI / IZR N * (IZR n + 1 / 2) * (IZR k + 1 / 2)). set (b := PI / IZR N * (IZR m + 1 / 2) * (IZR k + 1 / 2)).
    replace (PI / IZR N * (IZR n - IZR m) * (IZR k + 1 / 2)) with (a - b) by (unfold a, b; ring).
    replace (PI / IZR N * (IZR n + IZR m + 1) * (IZR k + 1 / 2)) with (a + b) by (unfold a, b; field; apply IZR_nz; lia).
    rewrite cos_minus, cos_plus. field.
Qed.

Lemma sqrt_g N : (0 < N)%Z -> sqrt (2 / IZR N) * sqrt (2 / IZR N) = 2 / IZR N.
Proof. intros H. apply sqrt_sqrt. apply Rlt_le, Rdiv_lt_0_compat; [lra|]. apply IZR_lt. exact H. Qed.

(** The transform is its own inverse. *)
Lemma dct4_involutive N x m : (0 < N)%Z -> (0 <= m < N)%Z -> dct4 N (dct4 N x) m = x m.
Proof.
  intros HN Hm. unfold dct4 at 1.
  assert (PN : IZR N <> 0) by (apply IZR_nz; lia).
  rewrite (sum_ext _ _ (fun k => sqrt (2 / IZR N) * sum N (fun n => x n * (kern4 N n k * kern4 N m k)))).
  - rewrite sum_scal, <- Rmult_assoc, sqrt_g by exact HN. rewrite sum_swap.
    rewrite (sum_ext _ _ (fun n => x n * (if Z.eq_dec n m then IZR N / 2 else 0))).
    + rewrite (sum_delta _ _ m Hm).
      * destruct (Z.eq_dec m m); [|contradiction]. field. exact PN.
      * intros i Hi Hne. destruct (Z.eq_dec i m); [contradiction|]. ring.
    + intros n Hn. rewrite sum_scal, kern4_orth by assumption. reflexivity.
  - intros k Hk. unfold dct4.
    replace (kern4 N k m) with (kern4 N m k) by (unfold kern4; f_equal; ring).
    rewrite Rmult_assoc. f_equal. rewrite (Rmult_comm (sum _ _)), <- sum_scal. apply sum_ext. intros; ring.
Qed.

(** ** Through a transform of half the size
    [z j] rotated, transformed and rotated again. *)
Lemma dct4_fft P c (w z Z' : Z -> cplx) (G : Z -> R) : (0 < P)%Z -> c * c = sqrt (2 / IZR (2 * P)) ->
  (forall j, (0 <= j < P)%Z -> w j = (c * cos (PI / IZR (2 * P) * (IZR j + 1 / 8)), c * sin (PI / IZR (2 * P) * (IZR j + 1 / 8)))) ->
  (forall j, (0 <= j < P)%Z -> z j = (G (2 * j)%Z * fst (w j) + G (2 * P - 1 - 2 * j)%Z * snd (w j), G (2 * P - 1 - 2 * j)%Z * fst (w j) - G (2 * j)%Z * snd (w j))) ->
  (forall k, (0 <= k < P)%Z -> Z' k = csum P (fun m => term P k m (z m))) ->
  forall p, (0 <= p < P)%Z ->
    fst (Z' p) * fst (w p) + snd (Z' p) * snd (w p) = dct4 (2 * P) G (2 * p) /\
    fst (Z' p) * snd (w p) - snd (Z' p) * fst (w p) = dct4 (2 * P) G (2 * P - 1 - 2 * p).
Proof.
  intros HP Hc Hw Hz HZ p Hp.
  assert (PP : IZR P <> 0) by (apply IZR_nz; lia).
  pose (th j := PI / IZR (2 * P) * (IZR (2 * j) + 1 / 2) * (IZR (2 * p) + 1 / 2)).
  assert (E2 : IZR (2 * P) = 2 * IZR P) by apply mult_IZR.
  assert (K : forall j, (0 <= j < P)%Z ->
    kern4 (2 * P) (2 * j) (2 * p) = cos (th j) /\ kern4 (2 * P) (2 * P - 1 - 2 * j) (2 * p) = sin (th j) /\
    kern4 (2 * P) (2 * j) (2 * P - 1 - 2 * p) = sin (th j) /\ kern4 (2 * P) (2 * P - 1 - 2 * j) (2 * P - 1 - 2 * p) = - cos (th j)).
  { intros j Hj. unfold kern4. rewrite !minus_IZR. split; [reflexivity|]. split; [|split].
    - rewrite <- cos_pi2_minus, <- (cos_2kpi (PI / 2 - th j) p). f_equal. unfold th. rewrite !mult_IZR. field. exact PP.
    - rewrite <- cos_pi2_minus, <- (cos_2kpi (PI / 2 - th j) j). f_equal. unfold th. rewrite !mult_IZR. field. exact PP.
    - rewrite <- cos_pi_minus, <- (cos_neg (PI - th j)), <- (cos_2kpi (- (PI - th j)) (P - j - p)). f_equal. unfold th. rewrite !minus_IZR, !mult_IZR. field. exact PP. }
  assert (T : forall j, (0 <= j < P)%Z ->
    fst (term P p j (z j)) * fst (w p) + snd (term P p j (z j)) * snd (w p) = c * c * (G (2 * j)%Z * cos (th j) + G (2 * P - 1 - 2 * j)%Z * sin (th j)) /\
    fst (term P p j (z j)) * snd (w p) - snd (term P p j (z j)) * fst (w p) = c * c * (G (2 * j)%Z * sin (th j) - G (2 * P - 1 - 2 * j)%Z * cos (th j))).
  { intros j Hj. rewrite Hz, Hw, Hw by assumption. cbn [fst snd]. unfold term. cbn [fst snd].
    set (a := PI / IZR (2 * P) * (IZR j + 1 / 8)). set (b := PI / IZR (2 * P) * (IZR p + 1 / 8)).
    replace (th j) with (dft_angle P p j + a + b).
    - rewrite !cos_plus, !sin_plus, ?cos_plus, ?sin_plus. split; ring.
    - unfold dft_angle, a, b, th. rewrite !mult_IZR. field. exact PP. }
  rewrite (HZ p Hp). unfold csum, dct4. cbn [fst snd]. rewrite <- Hc, !sum_even_odd by lia. split.
  - rewrite !(Rmult_comm (sum _ _)), <- !sum_scal, <- sum_add. apply sum_ext. intros j Hj. destruct (K j Hj) as (K1 & K2 & _). rewrite K1, K2.
    rewrite <- (proj1 (T j Hj)). ring.
  - rewrite !(Rmult_comm (sum _ _)), <- !sum_scal, <- sum_sub. apply sum_ext. intros j Hj. destruct (K j Hj) as (_ & _ & K3 & K4). rewrite K3, K4.
    transitivity (c * c * (G (2 * j)%Z * sin (th j) - G (2 * P - 1 - 2 * j)%Z * cos (th j))); [|ring]. rewrite <- (proj2 (T j Hj)). ring.
Qed.

(** ** The modified transform folds [2 ns] samples on [ns] *)
Definition fold_lo (ns : Z) (u : Z -> R) (m : Z) : R := u m - u (ns - 1 - m)%Z.
Definition fold_hi (ns : Z) (u : Z -> R) (m : Z) : R := u (ns + m)%Z + u (2 * ns - 1 - m)%Z.
Definition folded (P : Z) (u : Z -> R) (n : Z) : R :=
  if (n <? P)%Z then - fold_hi (2 * P) u (P - 1 - n) else fold_lo (2 * P) u (n - P).

Lemma mdct_folded P w t k : (0 < P)%Z -> mdct (2 * P) w t k = dct4 (2 * P) (folded P (fun n => w n * t n)) k.
Proof.
  intros HP. assert (PP : IZR P <> 0) by (apply IZR_nz; lia). assert (E2 : IZR (2 * P) = 2 * IZR P) by apply mult_IZR.
  unfold mdct, dct4. f_equal. set (u := fun n => w n * t n).
  replace (2 * (2 * P))%Z with (2 * P + 2 * P)%Z by lia. rewrite (sum_ends P (fun n => folded P u n * _)) by lia. rewrite sum_app, !sum_halves by lia.
  rewrite <- sum_add. apply sum_ext. intros m Hm.
  set (A := PI / IZR (2 * P) * (IZR k + 1 / 2)).
  assert (K : mdct_kernel (2 * P) (P + m) k = - mdct_kernel (2 * P) (P - 1 - m) k /\
              kern4 (2 * P) (2 * P - 1 - m) k = mdct_kernel (2 * P) (P - 1 - m) k /\
              mdct_kernel (2 * P) (2 * P + (P - 1 - m)) k = mdct_kernel (2 * P) (2 * P + (P + m)) k /\
              kern4 (2 * P) m k = - mdct_kernel (2 * P) (2 * P + (P + m)) k).
  { unfold mdct_kernel, kern4. rewrite !plus_IZR, !minus_IZR, E2. split; [|split; [|split]].
    - rewrite <- cos_pi_minus, <- (cos_2kpi (PI - _) k). f_equal. field. exact PP.
    - f_equal. field. exact PP.
    - match goal with |- cos ?X = cos ?Y => replace X with (- (Y + 2 * PI * IZR (- (2 * k + 1)))) end.
      + rewrite cos_neg. apply cos_2kpi.
      + rewrite opp_IZR, plus_IZR, mult_IZR. field. exact PP.
    - match goal with |- cos ?X = - cos ?Y => replace Y with (PI + X + 2 * PI * IZR k) end.
      + rewrite cos_2kpi, cos_plus, cos_PI, sin_PI. ring.
      + field. exact PP. }
  destruct K as (K1 & K2 & K3 & K4). rewrite K1, K2, K3, K4.
  unfold folded. replace (m <? P)%Z with true by lia. replace (2 * P - 1 - m <? P)%Z with false by lia. unfold fold_hi, fold_lo.
  replace (2 * P + (P - 1 - m))%Z with (3 * P - 1 - m)%Z by ring. replace (2 * (2 * P) - 1 - (P - 1 - m))%Z with (2 * P + (P + m))%Z by ring.
  replace (2 * P - 1 - m - P)%Z with (P - 1 - m)%Z by ring. replace (2 * P - 1 - (P - 1 - m))%Z with (P + m)%Z by ring. fold (u (P - 1 - m)%Z) (u (P + m)%Z).
  unfold u. ring.
Qed.

(** The inverse transform, from its sample [P]. *)
Lemma imdct_dct4 P X m : (0 < P)%Z -> imdct (2 * P) X (P + m) = - dct4 (2 * P) X (2 * P - 1 - m).
Proof.
  intros HP. assert (PP : IZR P <> 0) by (apply IZR_nz; lia). assert (E2 : IZR (2 * P) = 2 * IZR P) by apply mult_IZR.
  unfold imdct, dct4. rewrite Ropp_mult_distr_r. f_equal. rewrite <- (Rmult_1_l (sum _ (fun n => X n * kern4 _ _ _))), Ropp_mult_distr_l, <- sum_scal.
  apply sum_ext. intros k Hk. replace (mdct_kernel (2 * P) (P + m) k) with (- kern4 (2 * P) k (2 * P - 1 - m)); [ring|].
  unfold mdct_kernel, kern4. rewrite plus_IZR, !minus_IZR, E2. rewrite <- cos_pi_minus, <- (cos_2kpi (PI - _) k). f_equal. field. exact PP.
Qed.

(** The inverse of the folded samples: alias terms. *)
Lemma imdct_mdct P w t m : (0 < P)%Z -> (0 <= m < 2 * P)%Z ->
  imdct (2 * P) (mdct (2 * P) w t) (P + m) =
  if (m <? P)%Z then - fold_lo (2 * P) (fun n => w n * t n) (P - 1 - m) else fold_hi (2 * P) (fun n => w n * t n) (m - P).
Proof.
  intros HP Hm. rewrite imdct_dct4 by exact HP.
  replace (dct4 (2 * P) (mdct (2 * P) w t) (2 * P - 1 - m)) with (dct4 (2 * P) (dct4 (2 * P) (folded P (fun n => w n * t n))) (2 * P - 1 - m)).
  - rewrite dct4_involutive by lia. unfold folded. destruct (m <? P)%Z eqn:C.
    + replace (2 * P - 1 - m <? P)%Z with false by lia. do 2 f_equal. lia.
    + replace (2 * P - 1 - m <? P)%Z with true by lia. rewrite Ropp_involutive. f_equal. lia.
  - unfold dct4 at 1 3. f_equal. apply sum_ext. intros k Hk. rewrite mdct_folded by exact HP. reflexivity.
Qed.

(** Symmetries of the inverse transform. *)
Lemma imdct_odd P X n : (0 < P)%Z -> imdct (2 * P) X n = - imdct (2 * P) X (2 * P - 1 - n).
Proof.
  intros HP. assert (PP : IZR P <> 0) by (apply IZR_nz; lia). assert (E2 : IZR (2 * P) = 2 * IZR P) by apply mult_IZR.
  unfold imdct. rewrite Ropp_mult_distr_r. f_equal. rewrite <- (Rmult_1_l (sum _ (fun k => X k * mdct_kernel _ (_ - n) _))), Ropp_mult_distr_l, <- sum_scal.
  apply sum_ext. intros k Hk. replace (mdct_kernel (2 * P) n k) with (- mdct_kernel (2 * P) (2 * P - 1 - n) k); [ring|].
  unfold mdct_kernel. rewrite !minus_IZR, E2. rewrite <- cos_pi_minus, <- (cos_2kpi (PI - _) k). f_equal. field. exact PP.
Qed.
Lemma imdct_even P X n : (0 < P)%Z -> imdct (2 * P) X (2 * P + n) = imdct (2 * P) X (2 * (2 * P) - 1 - n).
Proof.
  intros HP. assert (PP : IZR P <> 0) by (apply IZR_nz; lia). assert (E2 : IZR (2 * P) = 2 * IZR P) by apply mult_IZR.
  unfold imdct. f_equal. apply sum_ext. intros k Hk. f_equal.
  unfold mdct_kernel. rewrite !minus_IZR, plus_IZR, (mult_IZR 2 (2 * P)), E2.
  match goal with |- cos ?A = cos ?B => replace A with (- (B + 2 * PI * IZR (- (2 * k + 1)))) end.
  - rewrite cos_neg. apply cos_2kpi.
  - rewrite opp_IZR, plus_IZR, mult_IZR. field. exact PP.
Qed.

(** The inverse transform of the transform: the windowed samples and their alias. *)
Lemma imdct_alias P w t n : (0 < P)%Z -> (0 <= n < 2 * (2 * P))%Z ->
  imdct (2 * P) (mdct (2 * P) w t) n =
  if (n <? 2 * P)%Z then w n * t n - w (2 * P - 1 - n)%Z * t (2 * P - 1 - n)%Z
  else w n * t n + w (3 * (2 * P) - 1 - n)%Z * t (3 * (2 * P) - 1 - n)%Z.
Proof.
  intros HP Hn. destruct (Z_lt_le_dec n P) as [L1|L1]; [|destruct (Z_lt_le_dec n (3 * P)) as [L2|L2]].
  - rewrite imdct_odd by exact HP. replace (2 * P - 1 - n)%Z with (P + (P - 1 - n))%Z at 1 by ring. rewrite imdct_mdct by lia.
    replace (P - 1 - n <? P)%Z with true by lia. replace (n <? 2 * P)%Z with true by lia. unfold fold_lo.
    replace (P - 1 - (P - 1 - n))%Z with n by ring. ring.
  - replace n with (P + (n - P))%Z at 1 by ring. rewrite imdct_mdct by lia. destruct (n <? 2 * P)%Z eqn:C.
    + replace (n - P <? P)%Z with true by lia. unfold fold_lo. replace (P - 1 - (n - P))%Z with (2 * P - 1 - n)%Z by ring.
      replace (2 * P - 1 - (2 * P - 1 - n))%Z with n by ring. ring.
    + replace (n - P <? P)%Z with false by lia. unfold fold_hi. replace (2 * P + (n - P - P))%Z with n by ring.
      replace (2 * (2 * P) - 1 - (n - P - P))%Z with (3 * (2 * P) - 1 - n)%Z by ring. reflexivity.
  - replace n with (2 * P + (n - 2 * P))%Z at 1 by ring. rewrite imdct_even by exact HP.
    replace (2 * (2 * P) - 1 - (n - 2 * P))%Z with (P + (5 * P - 1 - n))%Z by ring. rewrite imdct_mdct by lia.
    replace (5 * P - 1 - n <? P)%Z with false by lia. replace (n <? 2 * P)%Z with false by lia. unfold fold_hi.
    replace (2 * P + (5 * P - 1 - n - P))%Z with (3 * (2 * P) - 1 - n)%Z by ring. replace (2 * (2 * P) - 1 - (5 * P - 1 - n - P))%Z with n by ring. ring.
Qed.

(** ** Outputs of the radixes *)
Lemma angle_0 P k : dft_angle P k 0 = 0.
Proof. unfold dft_angle. rewrite Z.mul_0_r. unfold Rdiv. ring. Qed.
Lemma term_0 P k x : term P k 0 x = x.
Proof. unfold term. rewrite angle_0, cos_0, sin_0. destruct x. cbn [fst snd]. f_equal; ring. Qed.
