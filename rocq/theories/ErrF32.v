(** * Rounding errors of sums and products in binary32, relative to a scale *)
From Coq Require Import Reals ZArith List Bool Lia Lra.
From Flocq Require Import Core.Core IEEE754.BinarySingleNaN.
From Verif Require Import Base FloatLaws F32Model F32Proofs SpecEncFloat.
Local Open Scope R_scope.

Lemma rnd_close t b : Rabs t <= b -> b <= p2 100 -> Rabs (rnd32 t) < p2 128 /\ Rabs (rnd32 t - t) <= ru * b + rt.
Proof.
  intros H Hb. split.
  - pose proof (rnd_bnd t 1 100 ltac:(unfold kok; lia)) as R. rewrite Rmult_1_l in R. apply R. lra.
  - eapply Rle_trans; [apply rnd_err|]. pose proof ru_b. apply Rplus_le_compat_r. apply Rmult_le_compat_l; lra.
Qed.

Definition scale_ok (ell : R) : Prop := p2 (-100) <= ell <= p2 80.
Lemma rt_ell ell : scale_ok ell -> rt <= / 1000000 * (ru * ell).
Proof.
  intros (H & _). unfold rt, ru. replace (-150)%Z with (-24 + (-26 + -100))%Z by reflexivity. rewrite !bpow_plus.
  assert (p2 (-26) <= / 1000000) by (cbn; lra). pose proof (bpow_gt_0 radix2 (-24)). pose proof (bpow_gt_0 radix2 (-26)). pose proof (bpow_gt_0 radix2 (-100)).
  assert (p2 (-26) * p2 (-100) <= / 1000000 * ell) by (apply Rmult_le_compat; lra).
  replace (/ 1000000 * (p2 (-24) * ell)) with (p2 (-24) * (/ 1000000 * ell)) by ring. apply Rmult_le_compat_l; lra.
Qed.

Section Close.
Variable ell : R.
Hypothesis Hell : scale_ok ell.
Let E := ru * ell.
Let ellpos : 0 < ell. Proof. destruct Hell as (H & _). pose proof (bpow_gt_0 radix2 (-100)). lra. Qed.
Let Epos : 0 < E. Proof. unfold E. apply Rmult_lt_0_compat; [apply ru_b|exact ellpos]. Qed.
Let big b : b <= 100000 * ell -> b <= p2 100.
Proof.
  intros H. destruct Hell as (_ & H2). assert (100000 * ell <= p2 20 * p2 80) by (apply Rmult_le_compat; [lra|lra|cbn; lra|exact H2]). rewrite <- bpow_plus in H0. change (20 + 80)%Z with 100%Z in H0. lra.
Qed.

(** [x] is the number [r], below [c] times the scale, up to [k] roundings of the scale. *)
Definition close (c k : R) (x : f32) (r : R) : Prop := fin x /\ Rabs r <= c * ell /\ Rabs (val x - r) <= k * (ru * ell).

Lemma close_in x : fin x -> Rabs (val x) <= ell -> close 1 0 x (val x).
Proof. intros F H. split; [exact F|]. split; [lra|]. replace (val x - val x) with 0 by ring. rewrite Rabs_R0. lra. Qed.
Lemma close_weaken c k c' k' x r : c <= c' -> k <= k' -> close c k x r -> close c' k' x r.
Proof.
  intros Hc Hk (F & A & B). split; [exact F|]. split; [eapply Rle_trans; [exact A|]; apply Rmult_le_compat_r; lra|]. eapply Rle_trans; [exact B|]. apply Rmult_le_compat_r; [fold E; lra|exact Hk].
Qed.
Lemma close_opp c k x r : close c k x r -> close c k (Bopp x) (- r).
Proof.
  intros (F & A & B). split; [unfold fin; rewrite is_finite_Bopp; exact F|]. rewrite Rabs_Ropp. split; [exact A|]. unfold val in *. rewrite B2R_Bopp.
  replace (- B2R x - - r) with (- (B2R x - r)) by ring. rewrite Rabs_Ropp. exact B.
Qed.

Let sum_close c1 c2 k1 k2 t r : 0 <= c1 <= 100 -> 0 <= c2 <= 100 -> 0 <= k1 <= 1000 -> 0 <= k2 <= 1000 -> Rabs r <= (c1 + c2) * ell -> Rabs (t - r) <= (k1 + k2) * E ->
  Rabs (rnd32 t) < p2 128 /\ Rabs (rnd32 t - r) <= (k1 + k2 + c1 + c2 + / 1000) * E.
Proof.
  intros Hc1 Hc2 Hk1 Hk2 Hr Ht. pose proof ru_b as U. pose proof (rt_ell ell Hell) as T. fold E in T.
  assert (A : (k1 + k2) * ru <= / 8000) by (apply Rle_trans with (2000 * / 16000000); [apply Rmult_le_compat; lra|lra]).
  assert (A1 : (k1 + k2) * ru * E <= / 8000 * E) by (apply Rmult_le_compat_r; lra).
  assert (A2 : (k1 + k2) * E <= ell). { unfold E. rewrite <- Rmult_assoc. rewrite <- (Rmult_1_l ell) at 2. apply Rmult_le_compat_r; lra. }
  assert (Bt : Rabs t <= (c1 + c2) * ell + (k1 + k2) * E).
  { replace t with (r + (t - r)) by ring. eapply Rle_trans; [apply Rabs_triang|]. lra. }
  assert (C1 : (c1 + c2) * ell <= 200 * ell) by (apply Rmult_le_compat_r; lra).
  destruct (rnd_close t _ Bt) as (N & R). { apply big. lra. }
  split; [exact N|]. replace (rnd32 t - r) with ((rnd32 t - t) + (t - r)) by ring. eapply Rle_trans; [apply Rabs_triang|].
  assert (X : ru * ((c1 + c2) * ell + (k1 + k2) * E) = (c1 + c2) * E + (k1 + k2) * ru * E) by (unfold E; ring). rewrite X in R. lra.
Qed.
Lemma close_add c1 c2 k1 k2 x y r s : 0 <= c1 <= 100 -> 0 <= c2 <= 100 -> 0 <= k1 <= 1000 -> 0 <= k2 <= 1000 -> close c1 k1 x r -> close c2 k2 y s ->
  close (c1 + c2) (k1 + k2 + c1 + c2 + / 1000) (Add x y) (r + s).
Proof.
  intros Hc1 Hc2 Hk1 Hk2 (Fx & Ax & Bx) (Fy & Ay & By). fold E in Bx, By.
  assert (R : Rabs (r + s) <= (c1 + c2) * ell) by (eapply Rle_trans; [apply Rabs_triang|]; lra).
  destruct (sum_close c1 c2 k1 k2 (val x + val y) (r + s)) as (N & D); try assumption.
  { replace (val x + val y - (r + s)) with ((val x - r) + (val y - s)) by ring. eapply Rle_trans; [apply Rabs_triang|]. lra. }
  destruct (add_val x y Fx Fy N) as (F & V). split; [exact F|]. split; [exact R|]. rewrite V. exact D.
Qed.
Lemma close_sub c1 c2 k1 k2 x y r s : 0 <= c1 <= 100 -> 0 <= c2 <= 100 -> 0 <= k1 <= 1000 -> 0 <= k2 <= 1000 -> close c1 k1 x r -> close c2 k2 y s ->
  close (c1 + c2) (k1 + k2 + c1 + c2 + / 1000) (Sub x y) (r - s).
Proof.
  intros Hc1 Hc2 Hk1 Hk2 (Fx & Ax & Bx) (Fy & Ay & By). fold E in Bx, By.
  assert (R : Rabs (r - s) <= (c1 + c2) * ell) by (eapply Rle_trans; [apply Rabs_triang|]; rewrite Rabs_Ropp; lra).
  destruct (sum_close c1 c2 k1 k2 (val x - val y) (r - s)) as (N & D); try assumption.
  { replace (val x - val y - (r - s)) with ((val x - r) + - (val y - s)) by ring. eapply Rle_trans; [apply Rabs_triang|]. rewrite Rabs_Ropp. lra. }
  destruct (sub_val x y Fx Fy N) as (F & V). split; [exact F|]. split; [exact R|]. rewrite V. exact D.
Qed.

(** A product by a number of a table: [w] is [om], below [cw], up to [dw] roundings of one. *)
Definition tab_close (cw dw : R) (w : f32) (om : R) : Prop := fin w /\ Rabs om <= cw /\ Rabs (val w - om) <= dw * ru.
Lemma close_mul c k cw dw x w r om : 0 <= c <= 100 -> 0 <= k <= 1000 -> 0 <= cw <= 2 -> 0 <= dw <= 2 -> close c k x r -> tab_close cw dw w om ->
  close (c * cw) (k * cw + c * dw + c * cw + / 1000) (Mul x w) (r * om).
Proof.
  intros Hc Hk Hcw Hdw (Fx & Ax & Bx) (Fw & Aw & Bw). fold E in Bx. pose proof ru_b as U. pose proof (rt_ell ell Hell) as T. fold E in T.
  assert (R : Rabs (r * om) <= c * cw * ell).
  { rewrite Rabs_mult. replace (c * cw * ell) with (c * ell * cw) by ring. apply Rmult_le_compat; try apply Rabs_pos; assumption. }
  assert (D1 : k * dw * ru <= / 8000) by (assert (k * dw <= 1000 * 2) by (apply Rmult_le_compat; lra); apply Rle_trans with (2000 * / 16000000); [apply Rmult_le_compat; try lra; apply Rmult_le_pos; lra|lra]).
  assert (D1' : k * dw * ru * E <= / 8000 * E) by (apply Rmult_le_compat_r; lra).
  assert (W : Rabs (val w) <= cw + dw * ru).
  { replace (val w) with (om + (val w - om)) by ring. eapply Rle_trans; [apply Rabs_triang|]. lra. }
  assert (D : Rabs (val x * val w - r * om) <= (k * cw + c * dw) * E + k * dw * ru * E).
  { replace (val x * val w - r * om) with ((val x - r) * val w + r * (val w - om)) by ring. eapply Rle_trans; [apply Rabs_triang|]. rewrite !Rabs_mult.
    assert (Rabs (val x - r) * Rabs (val w) <= k * E * (cw + dw * ru)) by (apply Rmult_le_compat; try apply Rabs_pos; assumption).
    assert (Rabs r * Rabs (val w - om) <= c * ell * (dw * ru)) by (apply Rmult_le_compat; try apply Rabs_pos; assumption).
    replace (c * ell * (dw * ru)) with (c * dw * E) in H0 by (unfold E; ring). lra. }
  assert (K : k * cw + c * dw + k * dw * ru <= 2300) by (assert (k * cw <= 1000 * 2) by (apply Rmult_le_compat; lra); assert (c * dw <= 100 * 2) by (apply Rmult_le_compat; lra); lra).
  assert (Kp : 0 <= k * cw + c * dw + k * dw * ru).
  { pose proof (Rmult_le_pos k cw ltac:(lra) ltac:(lra)). pose proof (Rmult_le_pos c dw ltac:(lra) ltac:(lra)). pose proof (Rmult_le_pos k dw ltac:(lra) ltac:(lra)). pose proof (Rmult_le_pos (k * dw) ru ltac:(lra) ltac:(lra)). lra. }
  assert (K2 : (k * cw + c * dw + k * dw * ru) * ru <= / 6000) by (apply Rle_trans with (2300 * / 16000000); [apply Rmult_le_compat; lra|lra]).
  assert (K2' : (k * cw + c * dw + k * dw * ru) * ru * E <= / 6000 * E) by (apply Rmult_le_compat_r; lra).
  assert (Bt : Rabs (val x * val w) <= c * cw * ell + (k * cw + c * dw + k * dw * ru) * E).
  { replace (val x * val w) with (r * om + (val x * val w - r * om)) by ring. eapply Rle_trans; [apply Rabs_triang|]. lra. }
  assert (C1 : c * cw * ell <= 200 * ell) by (apply Rmult_le_compat_r; [lra|]; assert (c * cw <= 100 * 2) by (apply Rmult_le_compat; lra); lra).
  assert (A2 : (k * cw + c * dw + k * dw * ru) * E <= ell). { unfold E. rewrite <- Rmult_assoc. rewrite <- (Rmult_1_l ell) at 2. apply Rmult_le_compat_r; lra. }
  destruct (rnd_close _ _ Bt) as (N & Q). { apply big. lra. }
  destruct (mul_val x w Fx Fw N) as (F & V). split; [exact F|]. split; [exact R|]. rewrite V. fold E.
  replace (rnd32 (val x * val w) - r * om) with ((rnd32 (val x * val w) - val x * val w) + (val x * val w - r * om)) by ring. eapply Rle_trans; [apply Rabs_triang|].
  assert (X : ru * (c * cw * ell + (k * cw + c * dw + k * dw * ru) * E) = c * cw * E + (k * cw + c * dw + k * dw * ru) * ru * E) by (unfold E; ring). rewrite X in Q. lra.
Qed.
End Close.
