(** * Euclidean norm of finite families of complex numbers *)
From Coq Require Import Reals ZArith List Bool Lia Lra.
From Verif Require Import Base MdctSpec MdctMath.
Local Open Scope R_scope.

Definition sq (z : cplx) : R := fst z * fst z + snd z * snd z.
Definition md (z : cplx) : R := sqrt (sq z).
Definition cadd (a b : cplx) : cplx := (fst a + fst b, snd a + snd b).
Definition csub (a b : cplx) : cplx := (fst a - fst b, snd a - snd b).
Definition nrm (n : Z) (f : Z -> cplx) : R := sqrt (sum n (fun i => sq (f i))).

Lemma sq_pos z : 0 <= sq z.
Proof. unfold sq. pose proof (Rle_0_sqr (fst z)). pose proof (Rle_0_sqr (snd z)). unfold Rsqr in *. lra. Qed.
Lemma md_pos z : 0 <= md z. Proof. apply sqrt_pos. Qed.
Lemma md_sq z : md z * md z = sq z. Proof. apply sqrt_sqrt, sq_pos. Qed.
Lemma sqrt_le_sq x y : 0 <= y -> x <= y * y -> sqrt x <= y.
Proof. intros Hy H. rewrite <- (sqrt_square y Hy). apply sqrt_le_1_alt. exact H. Qed.
Lemma sq_le_abs x y : 0 <= y -> x * x <= y * y -> x <= y.
Proof. intros Hy H. destruct (Rle_or_lt x y) as [L|L]; [exact L|]. exfalso. assert (y * y < x * x) by (apply Rmult_le_0_lt_compat; lra). lra. Qed.

Lemma hyp_triangle a b c d : sqrt ((a + b) * (a + b) + (c + d) * (c + d)) <= sqrt (a * a + c * c) + sqrt (b * b + d * d).
Proof.
  assert (A : 0 <= a * a + c * c) by (pose proof (Rle_0_sqr a); pose proof (Rle_0_sqr c); unfold Rsqr in *; lra).
  assert (B : 0 <= b * b + d * d) by (pose proof (Rle_0_sqr b); pose proof (Rle_0_sqr d); unfold Rsqr in *; lra).
  pose proof (sqrt_pos (a * a + c * c)) as P1. pose proof (sqrt_pos (b * b + d * d)) as P2. pose proof (sqrt_sqrt _ A) as S1. pose proof (sqrt_sqrt _ B) as S2.
  apply sqrt_le_sq; [lra|].
  assert (C : a * b + c * d <= sqrt (a * a + c * c) * sqrt (b * b + d * d)).
  { apply sq_le_abs; [apply Rmult_le_pos; assumption|].
    replace (sqrt (a * a + c * c) * sqrt (b * b + d * d) * (sqrt (a * a + c * c) * sqrt (b * b + d * d)))
      with ((sqrt (a * a + c * c) * sqrt (a * a + c * c)) * (sqrt (b * b + d * d) * sqrt (b * b + d * d))) by ring. rewrite S1, S2.
    pose proof (Rle_0_sqr (a * d - b * c)) as Q. unfold Rsqr in Q. nra. }
  nra.
Qed.
Lemma md_triangle x y : md (cadd x y) <= md x + md y.
Proof. unfold md, sq, cadd. cbn [fst snd]. apply hyp_triangle. Qed.
Lemma md_opp x : md (csub (0, 0) x) = md x.
Proof. unfold md, sq, csub. cbn [fst snd]. f_equal. ring. Qed.
Lemma md_comp x : Rabs (fst x) <= md x /\ Rabs (snd x) <= md x.
Proof.
  pose proof (Rle_0_sqr (fst x)). pose proof (Rle_0_sqr (snd x)). unfold Rsqr in *.
  split; apply sq_le_abs; try apply md_pos; rewrite md_sq; unfold sq; rewrite <- Rabs_mult, Rabs_right; lra.
Qed.
Lemma md_le_comp x e : Rabs (fst x) <= e -> Rabs (snd x) <= e -> md x <= sqrt 2 * e.
Proof.
  intros H1 H2. assert (He : 0 <= e) by (eapply Rle_trans; [apply Rabs_pos|exact H1]).
  apply sqrt_le_sq; [apply Rmult_le_pos; [apply sqrt_pos|exact He]|].
  replace (sqrt 2 * e * (sqrt 2 * e)) with (sqrt 2 * sqrt 2 * (e * e)) by ring. rewrite sqrt_sqrt by lra. unfold sq.
  assert (forall v, Rabs v <= e -> v * v <= e * e). { intros v Hv. rewrite <- (Rabs_right (v * v)), Rabs_mult by (pose proof (Rle_0_sqr v); unfold Rsqr in *; lra). apply Rmult_le_compat; try apply Rabs_pos; assumption. }
  pose proof (H _ H1). pose proof (H _ H2). lra.
Qed.

Lemma sum_to_le n f g : (forall i, (0 <= i < Z.of_nat n)%Z -> f i <= g i) -> sum_to n f <= sum_to n g.
Proof.
  induction n as [|n IH]; intros H; cbn [sum_to]; [lra|]. apply Rplus_le_compat; [apply IH; intros; apply H; lia|apply H; lia].
Qed.
Lemma sum_le n f g : (forall i, (0 <= i < n)%Z -> f i <= g i) -> sum n f <= sum n g.
Proof. intros H. apply sum_to_le. intros i Hi. apply H. lia. Qed.
Lemma sum_pos n f : (forall i, (0 <= i < n)%Z -> 0 <= f i) -> 0 <= sum n f.
Proof. intros H. unfold sum. rewrite <- (sum_to_zero (Z.to_nat n)). apply sum_to_le. intros i Hi. apply H. lia. Qed.
Lemma sum_const n c : (0 <= n)%Z -> sum n (fun _ => c) = IZR n * c.
Proof.
  intros Hn. unfold sum. rewrite <- (Z2Nat.id n) at 2 by exact Hn. induction (Z.to_nat n) as [|m IH]; cbn [sum_to]; [cbn; ring|]. rewrite IH, Nat2Z.inj_succ, succ_IZR. ring.
Qed.
Lemma sum_ge1 n f i : (forall i, (0 <= i < n)%Z -> 0 <= f i) -> (0 <= i < n)%Z -> f i <= sum n f.
Proof.
  intros H Hi. assert (E : sum n (fun j => if (j =? i)%Z then f i else 0) = f i).
  { rewrite (sum_delta n _ i Hi); [rewrite Z.eqb_refl; reflexivity|]. intros j _ N. destruct (Z.eqb_spec j i); [contradiction|reflexivity]. }
  rewrite <- E. apply sum_le. intros j Hj. destruct (Z.eqb_spec j i) as [->|N]; [lra|apply H, Hj].
Qed.

(** ** Norm *)
Lemma nrm_pos n f : 0 <= nrm n f. Proof. apply sqrt_pos. Qed.
Lemma nrm_sq n f : nrm n f * nrm n f = sum n (fun i => sq (f i)).
Proof. apply sqrt_sqrt. apply sum_pos. intros. apply sq_pos. Qed.
Lemma nrm_ext n f g : (forall i, (0 <= i < n)%Z -> f i = g i) -> nrm n f = nrm n g.
Proof. intros H. unfold nrm. f_equal. apply sum_ext. intros i Hi. rewrite H by exact Hi. reflexivity. Qed.
Lemma nrm_le n f g : (forall i, (0 <= i < n)%Z -> md (f i) <= md (g i)) -> nrm n f <= nrm n g.
Proof. intros H. apply sqrt_le_1_alt. apply sum_le. intros i Hi. rewrite <- !md_sq. apply Rmult_le_compat; try apply md_pos; apply H, Hi. Qed.
Lemma nrm_ge n f i : (0 <= i < n)%Z -> md (f i) <= nrm n f.
Proof. intros Hi. apply sqrt_le_1_alt. apply (sum_ge1 n (fun i => sq (f i))); [intros; apply sq_pos|exact Hi]. Qed.
Lemma nrm_const n f h : (0 <= n)%Z -> 0 <= h -> (forall i, (0 <= i < n)%Z -> md (f i) <= h) -> nrm n f <= sqrt (IZR n) * h.
Proof.
  intros Hn Hh H. apply sqrt_le_sq; [apply Rmult_le_pos; [apply sqrt_pos|exact Hh]|].
  replace (sqrt (IZR n) * h * (sqrt (IZR n) * h)) with (sqrt (IZR n) * sqrt (IZR n) * (h * h)) by ring. rewrite sqrt_sqrt by (apply IZR_le; exact Hn).
  rewrite <- sum_const by exact Hn. apply sum_le. intros i Hi. rewrite <- md_sq. apply Rmult_le_compat; try apply md_pos; apply H, Hi.
Qed.
Lemma nrm_scal n k f : 0 <= k -> nrm n (fun i => (k * fst (f i), k * snd (f i))) = k * nrm n f.
Proof.
  intros Hk. unfold nrm. transitivity (sqrt (k * k) * sqrt (sum n (fun i => sq (f i)))); [|rewrite sqrt_square by exact Hk; reflexivity].
  rewrite <- sqrt_mult_alt by (apply Rmult_le_pos; exact Hk). f_equal.
  rewrite <- sum_scal. apply sum_ext. intros i _. unfold sq. cbn [fst snd]. ring.
Qed.
Lemma nrm_triangle n f g : nrm n (fun i => cadd (f i) (g i)) <= nrm n f + nrm n g.
Proof.
  unfold nrm, sum. induction (Z.to_nat n) as [|m IH]; cbn [sum_to]; [rewrite sqrt_0; lra|].
  set (A := sum_to m (fun i => sq (f i))) in *. set (B := sum_to m (fun i => sq (g i))) in *. set (C := sum_to m (fun i => sq (cadd (f i) (g i)))) in *.
  assert (PA : 0 <= A) by (unfold A; rewrite <- (sum_to_zero m); apply sum_to_le; intros; apply sq_pos).
  assert (PB : 0 <= B) by (unfold B; rewrite <- (sum_to_zero m); apply sum_to_le; intros; apply sq_pos).
  assert (PC : 0 <= C) by (unfold C; rewrite <- (sum_to_zero m); apply sum_to_le; intros; apply sq_pos).
  set (z := Z.of_nat m). pose proof (md_triangle (f z) (g z)) as T.
  pose proof (hyp_triangle (sqrt A) (sqrt B) (md (f z)) (md (g z))) as H. rewrite !md_sq, !sqrt_sqrt in H by assumption.
  eapply Rle_trans; [|exact H]. apply sqrt_le_1_alt. apply Rplus_le_compat.
  - rewrite <- (sqrt_sqrt C PC). apply Rmult_le_compat; try apply sqrt_pos; exact IH.
  - rewrite <- md_sq. apply Rmult_le_compat; try apply md_pos; exact T.
Qed.
Lemma nrm_sub n f g h : nrm n (fun i => csub (f i) (h i)) <= nrm n (fun i => csub (f i) (g i)) + nrm n (fun i => csub (g i) (h i)).
Proof. rewrite (nrm_ext n _ (fun i => cadd (csub (f i) (g i)) (csub (g i) (h i)))); [apply nrm_triangle|]. intros i _. unfold cadd, csub. cbn [fst snd]. f_equal; ring. Qed.
Lemma nrm_le_sub n f g : nrm n f <= nrm n g + nrm n (fun i => csub (f i) (g i)).
Proof. rewrite (nrm_ext n f (fun i => cadd (g i) (csub (f i) (g i)))); [apply nrm_triangle|]. intros i _. unfold cadd, csub. destruct (f i), (g i). cbn [fst snd]. f_equal; ring. Qed.

(** ** Sums by blocks *)
Lemma sum_blocks n L f : (0 <= n)%Z -> (0 <= L)%Z -> sum (n * L) f = sum n (fun i => sum L (fun k => f (i * L + k)%Z)).
Proof.
  intros Hn HL. rewrite Z.mul_comm, sum_split, sum_swap by assumption. apply sum_ext. intros i _. apply sum_ext. intros k _. f_equal. ring.
Qed.
Lemma sum_inputs p n L f : (0 <= p)%Z -> (0 <= n)%Z -> (0 <= L)%Z ->
  sum (n * (p * L)) f = sum n (fun i => sum L (fun k => sum p (fun q => f ((i + q * n) * L + k)%Z))).
Proof.
  intros Hp Hn HL. replace (n * (p * L))%Z with (p * n * L)%Z by ring. rewrite sum_blocks by (try assumption; apply Z.mul_nonneg_nonneg; assumption).
  rewrite sum_blocks by assumption. rewrite sum_swap. apply sum_ext. intros i _. rewrite sum_swap. apply sum_ext. intros k _. apply sum_ext. intros q _. f_equal. ring.
Qed.
Lemma sum_outputs p n L f : (0 <= p)%Z -> (0 <= n)%Z -> (0 <= L)%Z ->
  sum (n * (p * L)) f = sum n (fun i => sum L (fun k => sum p (fun r => f (i * (p * L) + r * L + k)%Z))).
Proof.
  intros Hp Hn HL. rewrite sum_blocks by (try assumption; apply Z.mul_nonneg_nonneg; assumption). apply sum_ext. intros i _.
  rewrite sum_blocks by assumption. rewrite sum_swap. apply sum_ext. intros k _. apply sum_ext. intros r _. f_equal. ring.
Qed.

(** ** Energy of a discrete Fourier transform *)
Lemma sum_to_cs_tele m x : 2 * sin (x / 2) * sum_to m (fun r => cos (IZR r * x)) = sin ((IZR (Z.of_nat m) - 1 / 2) * x) + sin (x / 2) /\
  2 * sin (x / 2) * sum_to m (fun r => sin (IZR r * x)) = cos (x / 2) - cos ((IZR (Z.of_nat m) - 1 / 2) * x).
Proof.
  induction m as [|m [IH1 IH2]]; cbn [sum_to].
  - replace ((IZR (Z.of_nat 0) - 1 / 2) * x) with (- (x / 2)) by (cbn; field). rewrite sin_neg, cos_neg. split; ring.
  - rewrite !Rmult_plus_distr_l, IH1, IH2. rewrite Nat2Z.inj_succ, succ_IZR. set (t := IZR (Z.of_nat m) * x).
    replace ((IZR (Z.of_nat m) - 1 / 2) * x) with (t - x / 2) by (unfold t; field). replace ((IZR (Z.of_nat m) + 1 - 1 / 2) * x) with (t + x / 2) by (unfold t; field).
    rewrite sin_plus, sin_minus, cos_plus, cos_minus. split; ring.
Qed.
Lemma sum_root p d : (0 < p)%Z -> (- p < d < p)%Z -> d <> 0%Z ->
  sum p (fun r => cos (2 * PI * IZR (r * d) / IZR p)) = 0 /\ sum p (fun r => sin (2 * PI * IZR (r * d) / IZR p)) = 0.
Proof.
  intros Hp Hd Nz. assert (Pp : 0 < IZR p) by (apply IZR_lt; exact Hp). set (x := 2 * PI * IZR d / IZR p).
  assert (Ns : sin (x / 2) <> 0).
  { unfold x. replace (2 * PI * IZR d / IZR p / 2) with (PI * (IZR d / IZR p)) by (field; lra).
    assert (G : forall y, 0 < y < 1 -> sin (PI * y) <> 0). { intros y Hy. apply Rgt_not_eq, sin_gt_0; pose proof PI_RGT_0; [apply Rmult_lt_0_compat; lra|]. rewrite <- (Rmult_1_r PI) at 2. apply Rmult_lt_compat_l; lra. }
    destruct (Z.lt_ge_cases d 0) as [L|L].
    - intros E. apply (G (- (IZR d / IZR p))).
      + unfold Rdiv. rewrite Ropp_mult_distr_l, <- opp_IZR. split; [apply Rmult_lt_0_compat; [apply IZR_lt; lia|apply Rinv_0_lt_compat; lra]|].
        apply (Rmult_lt_reg_r (IZR p)); [exact Pp|]. rewrite Rmult_assoc, Rinv_l, Rmult_1_r, Rmult_1_l by lra. apply IZR_lt. lia.
      + rewrite <- Ropp_mult_distr_r, sin_neg, E. ring.
    - apply G. split; [apply Rmult_lt_0_compat; [apply IZR_lt; lia|apply Rinv_0_lt_compat; lra]|].
      apply (Rmult_lt_reg_r (IZR p)); [exact Pp|]. unfold Rdiv. rewrite Rmult_assoc, Rinv_l, Rmult_1_r, Rmult_1_l by lra. apply IZR_lt. lia. }
  assert (Ec : sum p (fun r => cos (2 * PI * IZR (r * d) / IZR p)) = sum p (fun r => cos (IZR r * x))) by (apply sum_ext; intros r _; f_equal; unfold x; rewrite mult_IZR; field; lra).
  assert (Es : sum p (fun r => sin (2 * PI * IZR (r * d) / IZR p)) = sum p (fun r => sin (IZR r * x))) by (apply sum_ext; intros r _; f_equal; unfold x; rewrite mult_IZR; field; lra).
  rewrite Ec, Es. unfold sum. destruct (sum_to_cs_tele (Z.to_nat p) x) as [T1 T2]. rewrite Z2Nat.id in T1, T2 by lia.
  replace ((IZR p - 1 / 2) * x) with (- (x / 2) + 2 * PI * IZR d) in T1, T2 by (unfold x; field; lra).
  rewrite sin_2kpi, sin_neg in T1. rewrite cos_2kpi, cos_neg in T2.
  split; apply (Rmult_eq_reg_l (2 * sin (x / 2))); try lra.
Qed.
Lemma sq_term P k m x : sq (term P k m x) = sq x.
Proof.
  unfold sq, term. cbn [fst snd]. set (t := dft_angle P k m). pose proof (sin2_cos2 t) as H. unfold Rsqr in H.
  replace (_ + _) with ((fst x * fst x + snd x * snd x) * (sin t * sin t + cos t * cos t)) by ring. rewrite H. ring.
Qed.
Lemma sum_mul n m f g : sum n f * sum m g = sum n (fun i => sum m (fun j => f i * g j)).
Proof. rewrite Rmult_comm, <- sum_scal. apply sum_ext. intros i _. rewrite Rmult_comm, sum_scal. reflexivity. Qed.
Lemma dft_energy p u : (0 < p)%Z -> sum p (fun r => sq (csum p (fun q => term p r q (u q)))) = IZR p * sum p (fun q => sq (u q)).
Proof.
  intros Hp. assert (Pp : 0 < IZR p) by (apply IZR_lt; exact Hp).
  transitivity (sum p (fun r => sum p (fun q => sum p (fun q' =>
    (fst (u q) * fst (u q') + snd (u q) * snd (u q')) * cos (2 * PI * IZR (r * (q - q')) / IZR p) +
    (snd (u q) * fst (u q') - fst (u q) * snd (u q')) * sin (2 * PI * IZR (r * (q - q')) / IZR p))))).
  { apply sum_ext. intros r _. unfold sq, csum. cbn [fst snd]. rewrite !sum_mul, <- sum_add. apply sum_ext. intros q _. rewrite <- sum_add. apply sum_ext. intros q' _.
    unfold term, dft_angle. cbn [fst snd].
    replace (2 * PI * IZR (r * (q - q')) / IZR p) with (2 * PI * IZR (r * q) / IZR p - 2 * PI * IZR (r * q') / IZR p) by (rewrite !mult_IZR, minus_IZR; field; lra).
    rewrite cos_minus, sin_minus. ring. }
  rewrite sum_swap. rewrite <- sum_scal. apply sum_ext. intros q Hq. rewrite sum_swap.
  rewrite (sum_delta p _ q Hq).
  - rewrite (sum_ext p _ (fun _ => sq (u q))).
    + rewrite sum_const by lia. reflexivity.
    + intros r _. rewrite Z.sub_diag, Z.mul_0_r. replace (2 * PI * 0 / IZR p) with 0 by (field; lra). rewrite cos_0, sin_0. unfold sq. ring.
  - intros q' Hq' N. rewrite sum_add, !sum_scal. destruct (sum_root p (q - q') Hp ltac:(lia) ltac:(lia)) as [-> ->]. ring.
Qed.

(** ** A stage of the transform *)
Definition butterfly (p L n : Z) (V : Z -> cplx) (i r k : Z) : cplx := csum p (fun q => term (p * L) (r * L + k) q (V ((i + q * n) * L + k)%Z)).
Lemma butterfly_energy p L n V W : (0 < p)%Z -> (0 < L)%Z -> (0 <= n)%Z ->
  (forall i r k, (0 <= i < n)%Z -> (0 <= r < p)%Z -> (0 <= k < L)%Z -> W (i * (p * L) + r * L + k)%Z = butterfly p L n V i r k) ->
  nrm (n * (p * L)) W = sqrt (IZR p) * nrm (n * (p * L)) V.
Proof.
  intros Hp HL Hn H. unfold nrm. rewrite <- sqrt_mult_alt by (apply IZR_le; lia). f_equal. rewrite sum_outputs, sum_inputs by lia. rewrite <- sum_scal. apply sum_ext. intros i Hi.
  rewrite <- sum_scal. apply sum_ext. intros k Hk.
  rewrite (sum_ext p _ (fun r => sq (csum p (fun q => term p r q (term (p * L) k q (V ((i + q * n) * L + k)%Z)))))).
  - rewrite dft_energy by exact Hp. f_equal. apply sum_ext. intros q _. apply sq_term.
  - intros r Hr. rewrite H by assumption. unfold butterfly. f_equal. apply csum_ext. intros q _. symmetry. apply term_term. exists 0%Z. unfold dft_angle.
    rewrite !mult_IZR, plus_IZR, mult_IZR. field. split; apply IZR_nz; lia.
Qed.
