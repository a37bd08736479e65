(** * Rounding error of the forward transform in binary32 *)
From Coq Require Import Reals ZArith List Bool Lia Lra ZifyBool.
From Flocq Require Import Core.Core IEEE754.BinarySingleNaN.
From Verif Require Import Base BaseProofs FloatLaws F32Model F32Proofs SpecEncFloat ConfigModel MdctModel MdctProofs MdctFft MdctSpec MdctErrSpec MdctMath MdctExact MdctStream ErrNorm ErrF32 MdctErr MdctTabErr MdctErrCore MdctErrDct.
Local Open Scope R_scope.

(** ** Norms *)
Lemma norm_nrm n f : norm n f = nrm n (fun i => (f i, 0)).
Proof. unfold norm, nrm, sq. cbn [fst snd]. f_equal. apply sum_ext. intros. ring. Qed.
Lemma norm_pos n f : 0 <= norm n f. Proof. apply sqrt_pos. Qed.
Lemma norm_ext n f g : (forall i, (0 <= i < n)%Z -> f i = g i) -> norm n f = norm n g.
Proof. intros H. unfold norm. f_equal. apply sum_ext. intros i Hi. rewrite H by exact Hi. reflexivity. Qed.
Lemma norm_pairs P f : (0 <= P)%Z -> nrm P (fun j => (f (2 * j)%Z, f (2 * P - 1 - 2 * j)%Z)) = norm (2 * P) f.
Proof. intros HP. unfold nrm, norm, sq. cbn [fst snd]. rewrite sum_even_odd by exact HP. reflexivity. Qed.
Lemma norm_halves P f : (0 <= P)%Z -> nrm P (fun m => (f (P - 1 - m)%Z, f (P + m)%Z)) = norm (2 * P) f.
Proof. intros HP. unfold nrm, norm, sq. cbn [fst snd]. rewrite sum_halves by exact HP. reflexivity. Qed.
Lemma norm_quarters P f : (0 <= P)%Z -> nrm P (fun m => (md (f (2 * P + m)%Z, f (4 * P - 1 - m)%Z), md (f m, f (2 * P - 1 - m)%Z))) = norm (4 * P) f.
Proof.
  intros HP. unfold nrm, norm. f_equal. assert (E4 : sum (4 * P) (fun i => f i * f i) = sum (2 * P + 2 * P) (fun i => f i * f i)) by (f_equal; ring). rewrite E4, sum_app by lia. rewrite (sum_ends P) by exact HP. rewrite (sum_ends P (fun i => f (2 * P + i)%Z * _)) by exact HP. rewrite <- sum_add. apply sum_ext. intros m _.
  unfold sq at 1. cbn [fst snd]. rewrite !md_sq. unfold sq. cbn [fst snd]. replace (2 * P + (2 * P - 1 - m))%Z with (4 * P - 1 - m)%Z by ring. ring.
Qed.
Lemma norm_ge n f i : (0 <= i < n)%Z -> Rabs (f i) <= norm n f.
Proof. intros H. rewrite norm_nrm. eapply Rle_trans; [|apply (nrm_ge n (fun i => (f i, 0)) i H)]. apply (md_comp (f i, 0)). Qed.
Lemma norm_le_sub n f g : norm n f <= norm n g + norm n (fun i => f i - g i).
Proof.
  rewrite !norm_nrm. eapply Rle_trans; [apply (nrm_le_sub n _ (fun i => (g i, 0)))|]. apply Rplus_le_compat_l. apply Req_le, nrm_ext. intros i _. unfold csub. cbn [fst snd]. f_equal. ring.
Qed.
Lemma md_mono (x y : cplx) : Rabs (fst x) <= fst y -> Rabs (snd x) <= snd y -> md x <= md y.
Proof.
  intros A B. unfold md. apply sqrt_le_1_alt. unfold sq. apply Rplus_le_compat.
  - rewrite <- (Rabs_pos_eq (fst x * fst x)) by apply Rle_0_sqr. rewrite Rabs_mult. pose proof (Rabs_pos (fst x)). apply Rmult_le_compat; lra.
  - rewrite <- (Rabs_pos_eq (snd x * snd x)) by apply Rle_0_sqr. rewrite Rabs_mult. pose proof (Rabs_pos (snd x)). apply Rmult_le_compat; lra.
Qed.
Lemma md_add2 x y : Rabs (x + y) <= 1415 / 1000 * md (x, y) /\ Rabs (x - y) <= 1415 / 1000 * md (x, y).
Proof.
  assert (M := md_pos (x, y)). assert (S := md_sq (x, y)). unfold sq in S. cbn [fst snd] in S. set (m := md (x, y)) in *.
  assert (K : forall z, z * z <= 2 * (x * x + y * y) -> Rabs z <= 1415 / 1000 * m).
  { intros z Hz. destruct (Rle_lt_dec (Rabs z) (1415 / 1000 * m)) as [|L]; [assumption|]. exfalso. assert (Z2 : Rabs z * Rabs z = z * z) by (rewrite <- Rabs_mult; apply Rabs_pos_eq, Rle_0_sqr).
    assert (1415 / 1000 * m * (1415 / 1000 * m) < Rabs z * Rabs z) by (apply Rmult_le_0_lt_compat; try assumption; apply Rmult_le_pos; lra). pose proof (Rmult_le_pos m m M M). lra. }
  split; apply K; pose proof (Rle_0_sqr (x - y)); pose proof (Rle_0_sqr (x + y)); unfold Rsqr in *; lra.
Qed.
Lemma close_prod ell x w : scale_ok ell -> fin x -> fin w -> Rabs (val x * val w) <= ell -> close ell 1 (1001 / 1000) (Mul x w) (val x * val w).
Proof.
  intros Hell Fx Fw H. pose proof ru_b as U. pose proof (rt_ell ell Hell) as T. destruct Hell as (L1 & L2). assert (Lp : 0 < ell) by (pose proof (bpow_gt_0 radix2 (-100)); lra). assert (0 < ru * ell) by (apply Rmult_lt_0_compat; lra).
  assert (B : ell <= p2 100) by (eapply Rle_trans; [exact L2|apply bpow_le; lia]). destruct (rnd_close _ _ H B) as (N & D).
  destruct (mul_val x w Fx Fw N) as (F & V). split; [exact F|]. split; [lra|]. rewrite V. lra.
Qed.

(** ** Windowing and folding *)
Section Fold.
Variables (P nd : Z) (win d x : list f32).
Hypothesis HP : (0 < P <= 1000)%Z.
Hypothesis Hnd : (P <= nd <= 2 * P)%Z.
Hypothesis Lw : zlen win = (2 * P + nd)%Z.
Hypothesis Fw : forall n, (0 <= n)%Z -> fin (at_ f0 win n).
Hypothesis Ft : forall n, (0 <= n < 2 * P + nd)%Z -> fin (tin f0 nd d x n).
Let wv n := val (at_ f0 win n).
Let t n := val (tin f0 nd d x n).
Let v n := wv n * t n.
Let V := norm (4 * P) v.
Hypothesis HV : V <= p2 60.
Let h := p2 (-100).
Let hpos : 0 < h. Proof. apply bpow_gt_0. Qed.
Let lo m := (v m, v (2 * P - 1 - m)%Z).
Let hi m := (v (2 * P + m)%Z, v (4 * P - 1 - m)%Z).
Let el x := md x + h.
Let el_ok y : md y <= V -> scale_ok (el y).
Proof.
  intros H. unfold scale_ok, el. pose proof (md_pos y). fold h. split; [lra|]. assert (p2 60 <= p2 79) by (apply bpow_le; lia). assert (h <= p2 79) by (apply bpow_le; lia).
  replace (p2 80) with (p2 79 + p2 79) by (change 80%Z with (79 + 1)%Z; rewrite (bpow_plus radix2 79 1); change (p2 1) with 2; ring). lra.
Qed.
Let lohi m : (0 <= m < P)%Z -> md (hi m) <= V /\ md (lo m) <= V.
Proof.
  intros Hm. unfold V. rewrite <- norm_quarters by lia. pose proof (nrm_ge P (fun m => (md (hi m), md (lo m))) m Hm) as G. cbv beta in G.
  destruct (md_comp (md (hi m), md (lo m))) as (A & B). cbn [fst snd] in A, B. rewrite Rabs_pos_eq in A, B by apply md_pos. split; eapply Rle_trans; [exact A|exact G|exact B|exact G].
Qed.
Let prod y n : md y <= V -> Rabs (v n) <= md y -> (0 <= n < 2 * P + nd)%Z -> close (el y) 1 (1001 / 1000) (Mul (tin f0 nd d x n) (at_ f0 win n)) (v n).
Proof.
  intros H1 H2 Hn. replace (v n) with (val (tin f0 nd d x n) * val (at_ f0 win n)) by (unfold v, wv, t; ring). apply close_prod; [apply el_ok, H1|apply Ft, Hn|apply Fw; lia|].
  replace (val (tin f0 nd d x n) * val (at_ f0 win n)) with (v n) by (unfold v, wv, t; ring). unfold el. lra.
Qed.
Lemma fold_lo_close m : (0 <= m < P)%Z -> close (el (lo m)) 2 (4004 / 1000) (win_lo f0 Sub Mul (2 * P) nd win d x m) (fold_lo (2 * P) v m).
Proof.
  intros Hm. destruct (lohi m Hm) as (_ & L). destruct (md_comp (lo m)) as (A & B). unfold win_lo, fold_lo.
  eapply close_weaken; [apply el_ok, L| | |apply close_sub; [apply el_ok, L| | | | |apply prod; [exact L|exact A|lia]|apply prod; [exact L|exact B|lia]]]; lra.
Qed.
Lemma fold_hi_close m : (0 <= m < P)%Z -> close (el (hi m)) 2 (4004 / 1000) (win_hi f0 Add Mul (2 * P) nd win d x m) (fold_hi (2 * P) v m).
Proof.
  intros Hm. destruct (lohi m Hm) as (L & _). destruct (md_comp (hi m)) as (A & B). unfold win_hi, fold_hi. replace (2 * (2 * P))%Z with (4 * P)%Z by ring. destruct (m <? 2 * P - nd)%Z eqn:C.
  - assert (Z0 : v (4 * P - 1 - m)%Z = 0). { unfold v, wv, at_. rewrite nth_overflow; [change (val f0) with 0; ring|]. unfold zlen in Lw. lia. }
    rewrite Z0, Rplus_0_r. eapply close_weaken; [apply el_ok, L| | |apply prod; [exact L|exact A|lia]]; lra.
  - eapply close_weaken; [apply el_ok, L| | |apply close_add; [apply el_ok, L| | | | |apply prod; [exact L|exact A|lia]|apply prod; [exact L|exact B|lia]]]; lra.
Qed.

(** The folded samples. *)
Variable u : list f32.
Hypothesis Hu : forall i, (0 <= i < P)%Z -> at_ f0 u (P - 1 - i) = win_lo f0 Sub Mul (2 * P) nd win d x i /\ at_ f0 u (P + i) = win_hi f0 Add Mul (2 * P) nd win d x i.
Definition fv (n : Z) : R := (if (n <? P)%Z then -1 else 1) * val (at_ f0 u (2 * P - 1 - n)).
Let G := folded P v.
Lemma u_fin n : (0 <= n < 2 * P)%Z -> fin (at_ f0 u n).
Proof.
  intros Hn. destruct (Z_lt_le_dec n P) as [L|L].
  - destruct (Hu (P - 1 - n)%Z ltac:(lia)) as (E & _). replace (P - 1 - (P - 1 - n))%Z with n in E by ring. rewrite E. apply fold_lo_close. lia.
  - destruct (Hu (n - P)%Z ltac:(lia)) as (_ & E). replace (P + (n - P))%Z with n in E by ring. rewrite E. apply fold_hi_close. lia.
Qed.
Let fv_hi m : (0 <= m < P)%Z -> fv (P - 1 - m) = - val (win_hi f0 Add Mul (2 * P) nd win d x m) /\ G (P - 1 - m)%Z = - fold_hi (2 * P) v m.
Proof.
  intros Hm. unfold fv, G, folded. replace (P - 1 - m <? P)%Z with true by lia. replace (2 * P - 1 - (P - 1 - m))%Z with (P + m)%Z by ring. rewrite (proj2 (Hu m Hm)). replace (P - 1 - (P - 1 - m))%Z with m by ring. split; ring.
Qed.
Let fv_lo m : (0 <= m < P)%Z -> fv (P + m) = val (win_lo f0 Sub Mul (2 * P) nd win d x m) /\ G (P + m)%Z = fold_lo (2 * P) v m.
Proof.
  intros Hm. unfold fv, G, folded. replace (P + m <? P)%Z with false by lia. replace (2 * P - 1 - (P + m))%Z with (P - 1 - m)%Z by ring. rewrite (proj1 (Hu m Hm)). replace (P + m - P)%Z with m by ring. split; ring.
Qed.
Lemma fold_norm : norm (2 * P) G <= 1415 / 1000 * V.
Proof.
  rewrite <- norm_halves by lia. unfold V. rewrite <- norm_quarters by lia. rewrite <- nrm_scal by lra. apply nrm_le. intros m Hm. cbn [fst snd]. rewrite (proj2 (fv_hi m Hm)), (proj2 (fv_lo m Hm)). apply md_mono; cbn [fst snd].
  - rewrite Rabs_Ropp. unfold fold_hi. replace (2 * (2 * P))%Z with (4 * P)%Z by ring. apply md_add2.
  - apply md_add2.
Qed.
Lemma fold_err : norm (2 * P) (fun n => fv n - G n) <= 4004 / 1000 * ru * (V + tiny).
Proof.
  pose proof ru_b as U. rewrite <- norm_halves by lia.
  eapply Rle_trans; [apply (nrm_le P _ (fun m => (4004 / 1000 * ru * fst (cadd (md (hi m), md (lo m)) (h, h)), 4004 / 1000 * ru * snd (cadd (md (hi m), md (lo m)) (h, h)))))|].
  - intros m Hm. destruct (fv_hi m Hm) as (-> & ->). destruct (fv_lo m Hm) as (-> & ->). apply md_mono; cbn [fst snd cadd].
    + destruct (fold_hi_close m Hm) as (_ & _ & B). unfold el in B. replace (- val (win_hi f0 Add Mul (2 * P) nd win d x m) - - fold_hi (2 * P) v m) with (- (val (win_hi f0 Add Mul (2 * P) nd win d x m) - fold_hi (2 * P) v m)) by ring. rewrite Rabs_Ropp. lra.
    + destruct (fold_lo_close m Hm) as (_ & _ & B). unfold el in B. lra.
  - rewrite nrm_scal by (apply Rmult_le_pos; lra). apply Rmult_le_compat_l; [apply Rmult_le_pos; lra|]. eapply Rle_trans; [apply nrm_triangle|]. unfold V. rewrite <- norm_quarters by lia. apply Rplus_le_compat_l.
    eapply Rle_trans; [apply (nrm_const P _ (sqrt 2 * h)); [lia|apply Rmult_le_pos; [apply sqrt_pos|lra]|intros; apply md_le_comp; cbn [fst snd]; rewrite Rabs_pos_eq; lra]|].
    assert (sqrt (IZR P) <= 32) by (apply sqrt_le_sq; [lra|]; rewrite <- mult_IZR; apply IZR_le; lia). pose proof sqrt2_b as S2.
    assert (1024 * h = tiny) by (unfold tiny, h; change (-90)%Z with (10 + -100)%Z; rewrite (bpow_plus radix2 10 (-100)); f_equal; cbn; lra).
    apply Rle_trans with (32 * (2 * h)); [apply Rmult_le_compat; [apply sqrt_pos|apply Rmult_le_pos; lra|lra|apply Rmult_le_compat_r; lra]|lra].
Qed.
Lemma fv_norm : norm (2 * P) fv <= 1416 / 1000 * (V + tiny).
Proof.
  eapply Rle_trans; [apply (norm_le_sub _ _ G)|]. pose proof fold_norm as A. pose proof fold_err as B. pose proof ru_b as U. pose proof (proj1 tiny_b) as T0. assert (V0 : 0 <= V) by apply norm_pos.
  assert (4004 / 1000 * ru * (V + tiny) <= / 1000 * (V + tiny)) by (apply Rmult_le_compat_r; lra). lra.
Qed.
End Fold.
