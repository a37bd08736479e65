(** * Rounding error of the fast DCT-IV: rotation, FFT, rotation *)
From Coq Require Import Reals ZArith List Bool Lia Lra ZifyBool.
From Flocq Require Import Core.Core IEEE754.BinarySingleNaN.
From Verif Require Import Base BaseProofs FloatLaws F32Model F32Proofs SpecEncFloat MdctModel MdctProofs MdctFft MdctSpec MdctMath MdctExact MdctStream ErrNorm ErrF32 MdctErr.
Local Open Scope R_scope.

(** ** Rotations of pairs *)
Section Rotation.
Variables (P : Z) (xf yf : Z -> f32 * f32) (g : Z -> cplx -> cplx) (k : R).
Hypothesis HP : (0 < P <= 1000)%Z.
Hypothesis Hk : 0 <= k.
Hypothesis Fx : forall j, (0 <= j < P)%Z -> cfin (xf j).
Hypothesis Bx : nrm P (fun j => vc (xf j)) <= p2 79.
Hypothesis Hg : forall ell j, scale_ok ell -> (0 <= j < P)%Z -> cin ell (xf j) -> cclose ell k (yf j) (g j (vc (xf j))).
Let h := p2 (-100).
Let ell j := md (vc (xf j)) + h.
Let hpos : 0 < h. Proof. apply bpow_gt_0. Qed.
Let one_close j : (0 <= j < P)%Z -> cclose (ell j) k (yf j) (g j (vc (xf j))).
Proof.
  intros Hj. pose proof (nrm_ge P (fun j => vc (xf j)) j Hj) as N. cbv beta in N. pose proof (md_pos (vc (xf j))) as M0. apply Hg; [|exact Hj|].
  - unfold scale_ok, ell. fold h. split; [lra|]. replace (p2 80) with (p2 79 + p2 79) by (change 80%Z with (79 + 1)%Z; rewrite (bpow_plus radix2 79 1); change (p2 1) with 2; ring).
    assert (h <= p2 79) by (apply bpow_le; lia). lra.
  - split; [apply Fx, Hj|]. pose proof (md_comp (vc (xf j))) as (A & B). unfold ell. change (fst (vc (xf j))) with (val (fst (xf j))) in A. change (snd (vc (xf j))) with (val (snd (xf j))) in B. lra.
Qed.
Lemma rot_fin j : (0 <= j < P)%Z -> cfin (yf j).
Proof. intros Hj. apply (one_close j Hj). Qed.
Lemma rot_err : nrm P (fun j => csub (vc (yf j)) (g j (vc (xf j)))) <= 1415 / 1000 * k * ru * (nrm P (fun j => vc (xf j)) + tiny).
Proof.
  pose proof ru_b as U. pose proof sqrt2_b as S2. assert (K : 0 <= k * ru) by (apply Rmult_le_pos; lra).
  eapply Rle_trans; [apply (nrm_le P _ (fun j => (k * ru * sqrt 2 * ell j, 0)))|].
  - intros j Hj. destruct (one_close j Hj) as (_ & A & B). assert (0 <= ell j) by (pose proof (md_pos (vc (xf j))); unfold ell; lra).
    apply Rle_trans with (k * ru * sqrt 2 * ell j).
    + eapply Rle_trans; [apply md_le_comp; [exact A|exact B]|]. apply Req_le. ring.
    + eapply Rle_trans; [apply Rle_abs|]. apply (md_comp (k * ru * sqrt 2 * ell j, 0)).
  - eapply Rle_trans; [apply Req_le, (nrm_ext P _ (fun j => ((k * ru * sqrt 2) * fst (cadd (md (vc (xf j)), 0) (h, 0)), (k * ru * sqrt 2) * snd (cadd (md (vc (xf j)), 0) (h, 0)))))|].
    + intros j Hj. unfold cadd. cbn [fst snd]. unfold ell. f_equal. ring.
    + rewrite nrm_scal by (apply Rmult_le_pos; lra). replace (1415 / 1000 * k * ru * (nrm P (fun j => vc (xf j)) + tiny)) with (k * ru * (1415 / 1000) * (nrm P (fun j => vc (xf j)) + tiny)) by ring.
      apply Rmult_le_compat; [apply Rmult_le_pos; lra|apply nrm_pos|apply Rmult_le_compat_l; lra|]. eapply Rle_trans; [apply nrm_triangle|]. apply Rplus_le_compat.
      * apply nrm_le. intros j Hj. unfold md at 1, sq. cbn [fst snd]. pose proof (md_pos (vc (xf j))). apply sqrt_le_sq; [assumption|]. apply Req_le. ring.
      * eapply Rle_trans; [apply (nrm_const P _ h); [lia|lra|]; intros; unfold md, sq; cbn [fst snd]; apply sqrt_le_sq; [lra|]; apply Req_le; ring|].
        assert (sqrt (IZR P) <= 32) by (apply sqrt_le_sq; [lra|]; rewrite <- mult_IZR; apply IZR_le; lia).
        assert (1024 * h = tiny) by (unfold tiny, h; change (-90)%Z with (10 + -100)%Z; rewrite (bpow_plus radix2 10 (-100)); f_equal; cbn; lra).
        apply Rle_trans with (32 * h); [apply Rmult_le_compat_r; lra|lra].
Qed.
End Rotation.

(** ** The exact transform of pairs *)
Definition dftc (P : Z) (z : Z -> cplx) (k : Z) : cplx := csum P (fun m => term P k m (z m)).
Lemma dftc_norm P z : (0 < P)%Z -> nrm P (dftc P z) = sqrt (IZR P) * nrm P z.
Proof. intros HP. unfold nrm, dftc. rewrite dft_energy by exact HP. apply sqrt_mult_alt. apply IZR_le. lia. Qed.
Lemma dftc_sub P x y k : dftc P (fun j => csub (x j) (y j)) k = csub (dftc P x k) (dftc P y k).
Proof.
  unfold dftc, csum, csub. cbn [fst snd]. f_equal; rewrite <- sum_sub; apply sum_ext; intros q _; unfold term; cbn [fst snd]; ring.
Qed.
(** A rotation of modulus [c]. *)
Definition rotation (P : Z) (c : R) (g : Z -> cplx -> cplx) : Prop :=
  forall j, (0 <= j < P)%Z -> (forall x, md (g j x) = c * md x) /\ (forall x y, g j (csub x y) = csub (g j x) (g j y)).
Lemma rotation_norm P c g x : 0 <= c -> rotation P c g -> nrm P (fun j => g j (x j)) = c * nrm P x.
Proof.
  intros Hc H. rewrite <- nrm_scal by exact Hc. unfold nrm. f_equal. apply sum_ext. intros j Hj. rewrite <- md_sq. rewrite (proj1 (H j Hj)). unfold sq. cbn [fst snd]. pose proof (md_sq (x j)) as M. unfold sq in M.
  replace (c * md (x j) * (c * md (x j))) with (c * c * (md (x j) * md (x j))) by ring. rewrite M. ring.
Qed.
Lemma rotation_sub P c g x y : 0 <= c -> rotation P c g -> nrm P (fun j => csub (g j (x j)) (g j (y j))) = c * nrm P (fun j => csub (x j) (y j)).
Proof.
  intros Hc H. rewrite <- (rotation_norm P c g) by assumption. apply nrm_ext. intros j Hj. symmetry. apply (H j Hj).
Qed.

(** ** The whole *)
Definition tiny2 : R := p2 (-80).
Lemma tiny_b : 0 < tiny /\ 1000 * tiny <= tiny2.
Proof. unfold tiny, tiny2. split; [apply bpow_gt_0|]. change (-80)%Z with (10 + -90)%Z. rewrite (bpow_plus radix2 10 (-90)). apply Rmult_le_compat_r; [apply bpow_ge_0|]. cbn. lra. Qed.

Lemma core_err (P : Z) (c cst : R) (g1 g2 : Z -> cplx -> cplx) (xf zf cf rf : Z -> f32 * f32) (x : Z -> cplx) :
  (0 < P <= 1000)%Z -> / 10 <= c <= 1 -> c * c * sqrt (IZR P) = 1 -> 0 <= cst <= 200 -> rotation P c g1 -> rotation P c g2 ->
  (forall j, (0 <= j < P)%Z -> cfin (xf j)) -> nrm P (fun j => vc (xf j)) <= p2 68 ->
  (forall ell j, scale_ok ell -> (0 <= j < P)%Z -> cin ell (xf j) -> cclose ell (7 * c) (zf j) (g1 j (vc (xf j)))) ->
  ((forall j, (0 <= j < P)%Z -> cfin (zf j)) -> nrm P (fun j => vc (zf j)) <= p2 70 -> within P 1 P (fun j => vc (zf j)) cst cf) ->
  (forall ell j, scale_ok ell -> (0 <= j < P)%Z -> cin ell (cf j) -> cclose ell (7 * c) (rf j) (g2 j (vc (cf j)))) ->
  (forall j, (0 <= j < P)%Z -> cfin (zf j) /\ cfin (cf j) /\ cfin (rf j)) /\
  nrm P (fun j => csub (vc (rf j)) (g2 j (dftc P (fun m => g1 m (x m)) j))) <=
    nrm P (fun j => csub (vc (xf j)) (x j)) + (cst + 20) * ru * (nrm P (fun j => vc (xf j)) + tiny2).
Proof.
  intros HP Hc Ec Hcst R1 R2 Fx Bx H1 HF H2. pose proof ru_b as U. destruct tiny_b as (T0 & T1). pose proof (nrm_pos P (fun j => vc (xf j))) as N0.
  set (N := nrm P (fun j => vc (xf j))) in *.
  assert (B7 : p2 68 <= p2 79) by (apply bpow_le; lia). assert (P69 : tiny2 <= p2 68) by (apply bpow_le; lia).
  assert (B70 : 4 * p2 68 = p2 70) by (change 70%Z with (2 + 68)%Z; rewrite (bpow_plus radix2 2 68); reflexivity).
  assert (B78 : 256 * p2 70 = p2 78) by (change 78%Z with (8 + 70)%Z; rewrite (bpow_plus radix2 8 70); reflexivity).
  assert (B79 : p2 78 <= p2 79) by (apply bpow_le; lia).
  assert (SP : 1 <= sqrt (IZR P) <= 32) by (split; [rewrite <- sqrt_1 at 1; apply sqrt_le_1_alt, IZR_le; lia|apply sqrt_le_sq; [lra|]; rewrite <- mult_IZR; apply IZR_le; lia]).
  pose proof (rot_fin P xf zf g1 (7 * c) Fx ltac:(fold N; lra) H1) as Fz.
  pose proof (rot_err P xf zf g1 (7 * c) HP ltac:(lra) Fx ltac:(fold N; lra) H1) as E1. fold N in E1.
  assert (E1' : nrm P (fun j => csub (vc (zf j)) (g1 j (vc (xf j)))) <= c * (991 / 100 * ru * (N + tiny))).
  { eapply Rle_trans; [exact E1|]. replace (1415 / 1000 * (7 * c) * ru * (N + tiny)) with (c * (9905 / 1000 * ru * (N + tiny))) by (field). apply Rmult_le_compat_l; [lra|]. apply Rmult_le_compat_r; [lra|]. apply Rmult_le_compat_r; lra. }
  clear E1. set (M := N + tiny2) in *. assert (NM : N + tiny <= M) by (unfold M; lra). assert (M0 : 0 < M) by (unfold M; lra).
  assert (E1'' : nrm P (fun j => csub (vc (zf j)) (g1 j (vc (xf j)))) <= c * (991 / 100 * ru * M)).
  { eapply Rle_trans; [exact E1'|]. apply Rmult_le_compat_l; [lra|]. apply Rmult_le_compat_l; lra. }
  assert (UM : 991 / 100 * ru * M <= / 1000000 * M) by (apply Rmult_le_compat_r; lra).
  assert (Nz : nrm P (fun j => vc (zf j)) + tiny <= c * (1 + / 100000) * M).
  { assert (A : nrm P (fun j => vc (zf j)) <= c * N + c * (991 / 100 * ru * (N + tiny))).
    { eapply Rle_trans; [apply (nrm_le_sub P _ (fun j => g1 j (vc (xf j))))|]. rewrite (rotation_norm P c g1 (fun j => vc (xf j))) by (try assumption; lra). fold N. apply Rplus_le_compat_l. exact E1'. }
    assert (A2 : c * (991 / 100 * ru * (N + tiny)) <= c * (/ 1000000 * M)) by (apply Rmult_le_compat_l; [lra|]; apply Rle_trans with (991 / 100 * ru * M); [apply Rmult_le_compat_l; lra|exact UM]).
    assert (A3 : tiny <= c * (M - N)) by (apply Rle_trans with (/ 10 * (M - N)); [unfold M; lra|apply Rmult_le_compat_r; unfold M; lra]).
    replace (c * (1 + / 100000) * M) with (c * N + c * (M - N) + c * (/ 100000 * M)) by ring. assert (c * (/ 1000000 * M) <= c * (/ 100000 * M)) by (apply Rmult_le_compat_l; lra). lra. }
  assert (CM : c * (1 + / 100000) * M <= 2 * M) by (apply Rmult_le_compat_r; lra).
  destruct (HF Fz ltac:(unfold M in *; lra)) as (Fc & ex & St & Ne & Ee). clear HF.
  assert (Ex : forall j, (0 <= j < P)%Z -> ex j = dftc P (fun m => vc (zf m)) j).
  { intros j Hj. pose proof (St 0%Z j ltac:(lia) Hj) as S. rewrite Z.mul_0_l, Z.add_0_l in S. rewrite S. unfold dftc. apply csum_ext. intros m _. do 3 f_equal. lia. }
  assert (E2 : nrm P (fun j => csub (vc (cf j)) (dftc P (fun m => vc (zf m)) j)) <= sqrt (IZR P) * (c * ((cst + / 100) * ru * M))).
  { rewrite (nrm_ext P _ (fun j => csub (vc (cf j)) (ex j))) by (intros j Hj; rewrite (Ex j Hj); reflexivity). eapply Rle_trans; [exact Ee|]. apply Rmult_le_compat_l; [lra|].
    apply Rle_trans with (cst * ru * (c * (1 + / 100000) * M)); [apply Rmult_le_compat_l; [apply Rmult_le_pos; lra|exact Nz]|].
    replace (cst * ru * (c * (1 + / 100000) * M)) with (c * (cst * (1 + / 100000) * (ru * M))) by ring. apply Rmult_le_compat_l; [lra|]. rewrite (Rmult_assoc (cst + / 100)). apply Rmult_le_compat_r; [apply Rmult_le_pos; lra|]. lra. }
  set (Fx1 := dftc P (fun m => g1 m (vc (xf m)))).
  assert (E3 : nrm P (fun j => csub (vc (cf j)) (Fx1 j)) <= sqrt (IZR P) * (c * ((cst + 993 / 100) * ru * M))).
  { eapply Rle_trans; [apply (nrm_sub P _ (dftc P (fun m => vc (zf m))))|].
    assert (A : nrm P (fun j => csub (dftc P (fun m => vc (zf m)) j) (Fx1 j)) <= sqrt (IZR P) * (c * (991 / 100 * ru * M))).
    { rewrite (nrm_ext P _ (dftc P (fun m => csub (vc (zf m)) (g1 m (vc (xf m)))))) by (intros j _; symmetry; apply (dftc_sub P (fun m => vc (zf m)) (fun m => g1 m (vc (xf m))))). rewrite dftc_norm by lia. apply Rmult_le_compat_l; [lra|exact E1'']. }
    eapply Rle_trans; [apply Rplus_le_compat; [exact E2|exact A]|]. rewrite <- Rmult_plus_distr_l, <- Rmult_plus_distr_l. apply Rmult_le_compat_l; [lra|]. apply Rmult_le_compat_l; [lra|]. rewrite <- Rmult_plus_distr_r, <- Rmult_plus_distr_r. apply Rmult_le_compat_r; [lra|]. apply Rmult_le_compat_r; lra. }
  assert (CU : (cst + 993 / 100) * ru <= / 50000) by (apply Rle_trans with (300 * / 16000000); [apply Rmult_le_compat; lra|lra]).
  assert (Nc : nrm P (fun j => vc (cf j)) <= sqrt (IZR P) * (c * (N + / 50000 * M))).
  { assert (NF : nrm P Fx1 = sqrt (IZR P) * (c * N)) by (unfold Fx1; rewrite dftc_norm by lia; f_equal; apply (rotation_norm P c g1 (fun j => vc (xf j))); [lra|assumption]).
    eapply Rle_trans; [apply (nrm_le_sub P _ Fx1)|]. rewrite NF.
    replace (sqrt (IZR P) * (c * (N + / 50000 * M))) with (sqrt (IZR P) * (c * N) + sqrt (IZR P) * (c * (/ 50000 * M))) by ring. apply Rplus_le_compat_l. eapply Rle_trans; [exact E3|]. apply Rmult_le_compat_l; [lra|]. apply Rmult_le_compat_l; [lra|]. apply Rmult_le_compat_r; lra. }
  assert (Bc : nrm P (fun j => vc (cf j)) <= p2 79).
  { eapply Rle_trans; [exact Nc|]. apply Rle_trans with (32 * (2 * M)); [|unfold M in *; lra]. apply Rmult_le_compat; [lra|apply Rmult_le_pos; lra|lra|]. replace (2 * M) with (1 * (2 * M)) by ring. apply Rmult_le_compat; [lra|lra|lra|]. unfold M in *. lra. }
  pose proof (rot_fin P cf rf g2 (7 * c) Fc Bc H2) as Fr.
  pose proof (rot_err P cf rf g2 (7 * c) HP ltac:(lra) Fc Bc H2) as E4.
  split; [intros j Hj; auto|].
  assert (E4' : nrm P (fun j => csub (vc (rf j)) (g2 j (vc (cf j)))) <= 992 / 100 * ru * M).
  { eapply Rle_trans; [exact E4|]. assert (A : c * (nrm P (fun j => vc (cf j)) + tiny) <= (1 + / 50000) * M).
    { apply Rle_trans with (c * (sqrt (IZR P) * (c * (N + / 50000 * M)) + tiny)); [apply Rmult_le_compat_l; lra|].
      replace (c * (sqrt (IZR P) * (c * (N + / 50000 * M)) + tiny)) with ((c * c * sqrt (IZR P)) * (N + / 50000 * M) + c * tiny) by ring. rewrite Ec. assert (c * tiny <= 1 * tiny) by (apply Rmult_le_compat_r; lra). unfold M. lra. }
    replace (1415 / 1000 * (7 * c) * ru * (nrm P (fun j => vc (cf j)) + tiny)) with (9905 / 1000 * ru * (c * (nrm P (fun j => vc (cf j)) + tiny))) by field.
    apply Rle_trans with (9905 / 1000 * ru * ((1 + / 50000) * M)); [apply Rmult_le_compat_l; lra|]. replace (9905 / 1000 * ru * ((1 + / 50000) * M)) with (9905 / 1000 * (1 + / 50000) * (ru * M)) by ring. replace (992 / 100 * ru * M) with (992 / 100 * (ru * M)) by ring. apply Rmult_le_compat_r; [apply Rmult_le_pos; lra|lra]. }
  eapply Rle_trans; [apply (nrm_sub P _ (fun j => g2 j (vc (cf j))))|].
  assert (E5 : nrm P (fun j => csub (g2 j (vc (cf j))) (g2 j (dftc P (fun m => g1 m (x m)) j))) <= nrm P (fun j => csub (vc (xf j)) (x j)) + (cst + 993 / 100) * ru * M).
  { rewrite (rotation_sub P c g2 (fun j => vc (cf j))) by (try assumption; lra). apply Rle_trans with (c * (nrm P (fun j => csub (vc (cf j)) (Fx1 j)) + nrm P (fun j => csub (Fx1 j) (dftc P (fun m => g1 m (x m)) j)))); [apply Rmult_le_compat_l; [lra|exact (nrm_sub P (fun j => vc (cf j)) Fx1 (dftc P (fun m => g1 m (x m))))]|].
    assert (A : nrm P (fun j => csub (Fx1 j) (dftc P (fun m => g1 m (x m)) j)) = sqrt (IZR P) * (c * nrm P (fun j => csub (vc (xf j)) (x j)))).
    { rewrite (nrm_ext P _ (dftc P (fun m => csub (g1 m (vc (xf m))) (g1 m (x m))))) by (intros j _; symmetry; apply (dftc_sub P (fun m => g1 m (vc (xf m))) (fun m => g1 m (x m)))). rewrite dftc_norm by lia. rewrite (rotation_sub P c g1 (fun j => vc (xf j))) by (try assumption; lra). reflexivity. }
    rewrite A. rewrite Rmult_plus_distr_l. replace (c * (sqrt (IZR P) * (c * nrm P (fun j => csub (vc (xf j)) (x j))))) with ((c * c * sqrt (IZR P)) * nrm P (fun j => csub (vc (xf j)) (x j))) by ring. rewrite Ec.
    assert (B : c * nrm P (fun j => csub (vc (cf j)) (Fx1 j)) <= (cst + 993 / 100) * ru * M).
    { apply Rle_trans with (c * (sqrt (IZR P) * (c * ((cst + 993 / 100) * ru * M)))); [apply Rmult_le_compat_l; [lra|exact E3]|]. replace (c * (sqrt (IZR P) * (c * ((cst + 993 / 100) * ru * M)))) with ((c * c * sqrt (IZR P)) * ((cst + 993 / 100) * ru * M)) by ring. rewrite Ec. lra. }
    clear - A B. lra. }
  assert (X : 0 <= ru * M) by (apply Rmult_le_pos; lra). replace ((cst + 20) * ru * M) with ((cst + 993 / 100) * ru * M + 1007 / 100 * (ru * M)) by field. lra.
Qed.
