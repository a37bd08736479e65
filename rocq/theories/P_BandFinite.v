(** * C43: the energies of the bands in binary32 *)
From Coq Require Import Reals ZArith List Bool Lia Lra ZifyBool.
From Flocq Require Import Core.Core IEEE754.BinarySingleNaN.
From Verif Require Import Base BaseProofs ConfigModel FloatOps FloatLaws LoopProofs TnsProofs BandModel BandProofs P_Band F32Model F32Proofs.
Import ListNotations.
Local Open Scope Z_scope.

(** Finite, not negative, no more than [k] times 2^[e]. *)
Definition nn (k e : Z) (x : f32) : Prop := bnd k e x /\ (0 <= val x)%R.
Lemma rnd_nonneg r : (0 <= r)%R -> (0 <= rnd32 r)%R.
Proof. intros H. apply round_ge_generic; [apply vexp32|apply valid_rnd_N|apply generic_format_0|exact H]. Qed.
Lemma nn_add k e x y : kok (k + 1) e -> nn k e x -> nn 1 e y -> nn (k + 1) e (Add x y).
Proof.
  intros K ((Fx & Bx) & Px) ((Fy & By) & Py). split; [apply bnd_add; [exact K|split; assumption|split; assumption]|].
  assert (B : (Rabs (val x + val y) <= IZR (k + 1) * p2 e)%R) by (rewrite plus_IZR, Rmult_plus_distr_r; eapply Rle_trans; [apply Rabs_triang|]; lra).
  destruct (rnd_bnd _ _ _ K B) as (_ & L). destruct (add_val x y Fx Fy L) as (_ & ->). apply rnd_nonneg. lra.
Qed.
Lemma nn_square e v : 0 <= e <= 50 -> bnd 1 e v -> nn 1 (2 * e) (Mul v v).
Proof.
  intros He (Fv & Bv). assert (K : kok (1 * 1) (e + e)) by (unfold kok; lia). replace (2 * e) with (e + e) by lia. split; [apply (bnd_mul 1 1); [exact K|split; assumption|split; assumption]|].
  rewrite Rmult_1_l in Bv. assert (B : (Rabs (val v * val v) <= IZR 1 * p2 (e + e))%R) by (rewrite Rmult_1_l, bpow_plus, Rabs_mult; apply Rmult_le_compat; auto using Rabs_pos).
  destruct (rnd_bnd _ _ _ K B) as (_ & L). destruct (mul_val v v Fv Fv L) as (_ & ->). apply rnd_nonneg. nra.
Qed.
Lemma nn_sum e l : -149 <= e <= 100 -> forall k v, 0 <= k -> k + zlen l <= 2 ^ 24 -> nn k e v -> Forall (nn 1 e) l -> nn (k + zlen l) e (fold_left Add l v).
Proof.
  intros He. induction l as [|a l IH]; intros k v Hk L Hv Hl; cbn [fold_left].
  - change (zlen []) with 0. rewrite Z.add_0_r. exact Hv.
  - assert (Z1 : zlen (a :: l) = 1 + zlen l) by (unfold zlen; cbn [length]; lia). pose proof (zlen_nonneg l). rewrite Z1 in *. inversion Hl. subst. replace (k + (1 + zlen l)) with (k + 1 + zlen l) by lia.
    apply IH; [lia|lia| |assumption]. apply nn_add; [unfold kok; lia|exact Hv|assumption].
Qed.
Lemma nn_mean nan e l : 0 <= e <= 50 -> 0 < zlen l <= 2 ^ 24 -> Forall (bnd 1 e) l -> nn 1 (2 * e) (mean_square (f32_ops nan) l).
Proof.
  intros He Hn Hl. destruct l as [|a l]; [cbn in Hn; lia|]. inversion Hl as [|? ? Ha Hl']. subst. unfold mean_square.
  assert (Z1 : zlen (a :: l) = 1 + zlen l) by (unfold zlen; cbn [length]; lia). pose proof (zlen_nonneg l).
  assert (S : nn (1 + zlen l) (2 * e) (fsum (f32_ops nan) (squares (f32_ops nan) (a :: l)))).
  { unfold squares. cbn [map fsum]. replace (zlen l) with (zlen (map (fun v : f32 => Mul v v) l)) by (unfold zlen; rewrite map_length; reflexivity). apply nn_sum; [lia|lia| |apply nn_square; [exact He|exact Ha]|].
    - unfold zlen in *. rewrite map_length. lia.
    - apply Forall_map. eapply Forall_impl; [|exact Hl']. intros v V. apply nn_square; assumption. }
  rewrite Z1 in *. set (n := 1 + zlen l) in *. change (f_z (f32_ops nan) n) with (f32_dy n 0). destruct (dy_exact n 0) as (D1 & D2); [lia|lia|]. rewrite Rmult_1_r in D2 || (cbn in D2).
  assert (N : (1 <= IZR n)%R) by (apply (IZR_le 1); lia). assert (V : val (f32_dy n 0) = IZR n) by (rewrite D2; cbn; try ring).
  set (s := fsum _ _) in *. clearbody s n. destruct S as ((Fs & Bs) & Ps). rewrite Rabs_pos_eq in Bs by exact Ps.
  assert (Q0 : (0 <= val s / IZR n)%R) by (apply Rmult_le_pos; [exact Ps|apply Rlt_le, Rinv_0_lt_compat; lra]).
  assert (Q1 : (Rabs (val s / IZR n) <= IZR 1 * p2 (2 * e))%R).
  { rewrite Rabs_pos_eq by exact Q0. apply Rmult_le_reg_r with (IZR n); [lra|]. unfold Rdiv. rewrite Rmult_assoc, Rinv_l, Rmult_1_r by lra. lra. }
  destruct (rnd_bnd _ 1 (2 * e) ltac:(unfold kok; lia) Q1) as (B1 & B2). destruct (div_val s (f32_dy n 0) Fs) as (F & W); [rewrite V; lra|rewrite V; exact B2|].
  change (f_div (f32_ops nan) s (f32_dy n 0)) with (Div s (f32_dy n 0)). rewrite V in W. split; [split; [exact F|rewrite W; exact B1]|rewrite W; apply rnd_nonneg; exact Q0].
Qed.

(** For every binary32 spectrum of magnitudes within 2^m (m up to 50), with the roundings of the
    code: the energies of all the bands are finite, not negative, and within 2^(2m). So the
    noise shaping and the bandwidth detection that use them get neither infinity nor NaN. *)
Theorem C43_energies_finite nan dt sr m x : frame_cfg dt sr -> c_ne dt sr <= zlen x -> (m <= 50)%nat ->
  Forall (fun v : f32 => is_finite v = true /\ (Rabs (B2R v) <= 2 ^ m)%R) x ->
  exists flag e, energy_compute (f32_ops nan) dt sr x = Some (flag, e) /\ zlen e = num_bands dt sr /\
    Forall (fun v : f32 => is_finite v = true /\ (0 <= B2R v <= 2 ^ (2 * m))%R) e.
Proof.
  intros C L Hm Hx. destruct (C43_energies f32 (f32_ops nan) dt sr x C L) as (flag & e & E & Le & He). exists flag, e. split; [exact E|]. split; [exact Le|].
  assert (P : forall n, p2 (Z.of_nat n) = (2 ^ n)%R) by (intros n; rewrite bpow_powerRZ, <- pow_powerRZ; reflexivity).
  apply Forall_forall. intros v Hv. apply In_nth_error in Hv as (k & K). assert (Rk : rd e (Z.of_nat k) = Some v) by (unfold rd; replace (Z.of_nat k <? 0) with false by lia; rewrite Nat2Z.id; exact K).
  assert (Bk : 0 <= Z.of_nat k < num_bands dt sr). { rewrite <- Le. assert (k < length e)%nat by (apply nth_error_Some; congruence). unfold zlen. lia. }
  destruct (C43_bands dt sr C) as (_ & _ & _ & _ & HB). destruct (HB _ Bk) as (lo & hi & B1 & B2 & B3 & B4). specialize (He _ lo hi Bk B1 B2). assert (X : v = mean_square (f32_ops nan) (part x lo hi)) by congruence.
  assert (Ln : zlen (part x lo hi) = hi - lo) by (apply part_len; lia).
  assert (Cn : c_ne dt sr <= 960). { apply Z.leb_le. clear - C. apply frame_cfg_eq in C. revert dt sr C. apply all_cfg. vm_compute. reflexivity. }
  assert (N : nn 1 (2 * Z.of_nat m) v).
  { rewrite X. apply nn_mean; [lia|rewrite Ln; lia|]. apply Forall_forall. intros w Hw. assert (Hw' : In w x) by (unfold part in Hw; rewrite <- (firstn_skipn (Z.to_nat lo) x); apply in_or_app; right; rewrite <- (firstn_skipn (Z.to_nat (hi - lo)) (skipn (Z.to_nat lo) x)); apply in_or_app; left; exact Hw).
    rewrite Forall_forall in Hx. destruct (Hx w Hw') as (W1 & W2). split; [exact W1|]. rewrite Rmult_1_l, P. exact W2. }
  destruct N as ((N1 & N2) & N3). split; [exact N1|]. rewrite Rmult_1_l, Rabs_pos_eq in N2 by exact N3. replace (2 * Z.of_nat m) with (Z.of_nat (2 * m)) in N2 by lia. rewrite P in N2. split; assumption.
Qed.
Print Assumptions C43_energies_finite.

Example C43_energies_finite_example :
  let x := map (fun i => f32_dy (Z.of_nat i - 20) 0) (seq 0 40) in
  frame_cfg 1 0 /\ c_ne 1 0 <= zlen x /\ Forall (fun v : f32 => is_finite v = true /\ (Rabs (B2R v) <= 2 ^ 5)%R) x.
Proof.
  cbv zeta. split; [unfold frame_cfg; lia|]. split; [vm_compute; discriminate|]. apply Forall_map, Forall_forall. intros i Hi. apply in_seq in Hi.
  destruct (dy_exact (Z.of_nat i - 20) 0) as (D1 & D2); [lia|lia|]. split; [exact D1|]. change (Rabs (val (f32_dy (Z.of_nat i - 20) 0)) <= 2 ^ 5)%R. rewrite D2. change (p2 (- 0)) with 1%R. rewrite Rmult_1_r, <- abs_IZR.
  apply Rle_trans with (IZR 32); [apply IZR_le; lia|lra].
Qed.
