(** * TNS on the real numbers: stability of the decoder, quantization *)
From Coq Require Import Reals ZArith List Bool Lia Lra ZifyBool.
From Verif Require Import Base BaseProofs ConfigModel SideModel SideSpec ShapeTables FloatOps RealOps LoopProofs TnsModel TnsProofs TnsFilter TnsStable TnsMain.
Import ListNotations.
Local Open Scope R_scope.

Lemma p15 : powerRZ 2 15 = 32768.
Proof. unfold powerRZ. change (Pos.to_nat 15) with 15%nat. simpl. lra. Qed.
Lemma rc_val_sq q : (-8 <= q <= 8)%Z -> rc_val Rops q * rc_val Rops q < 1.
Proof.
  intros H. unfold rc_val. assert (B : (0 <= znth tns_q_inv (Z.abs q) 0 < 32768)%Z).
  { assert (K : forallb (fun a => (0 <=? znth tns_q_inv a 0) && (znth tns_q_inv a 0 <? 32768))%Z [0; 1; 2; 3; 4; 5; 6; 7; 8]%Z = true) by (vm_compute; reflexivity).
    rewrite forallb_forall in K. specialize (K (Z.abs q)). cbn [In] in K. specialize (K ltac:(lia)). lia. }
  set (t := znth tns_q_inv (Z.abs q) 0%Z) in *. rewrite Rops_dy, p15. destruct B as [B1 B2]. apply IZR_le in B1. apply IZR_lt in B2.
  assert (A : 0 <= IZR t / 32768 < 1) by lra. set (m := IZR t / 32768) in *. assert (m * m < 1) by (apply Rle_lt_trans with (m * 1); [apply Rmult_le_compat_l; lra|lra]).
  destruct (q <? 0)%Z; cbn [f_opp Rops]; lra.
Qed.
Lemma rc_val_0 : rc_val Rops 0 = 0.
Proof. unfold rc_val. cbn [Z.ltb Z.compare]. rewrite Rops_dy. change (znth tns_q_inv (Z.abs 0) 0%Z) with 0%Z. unfold Rdiv. apply Rmult_0_l. Qed.

Lemma damp_app l m : damp (l ++ m) = damp l * damp m.
Proof. induction l; cbn [app damp]; [ring|]. rewrite IHl. ring. Qed.
Lemma damp_zeros n : damp (repeat 0 n) = 1.
Proof. induction n; cbn [repeat damp]; [reflexivity|]. rewrite IHn. ring. Qed.

(** The coefficients of a filter of the decoder. *)
Lemma filter_list q (rc : list R) : zlen rc = 8%Z -> (zlen q <= 8)%Z -> (forall i v, rd q i = Some v -> rd rc i = Some (rc_val Rops v)) ->
  (forall i, (zlen q <= i < 8)%Z -> rd rc i = Some (f_z Rops 0)) -> rc = map (rc_val Rops) q ++ repeat 0 (8 - length q).
Proof.
  intros L Lq H1 H2. apply rd_ext.
  - unfold zlen in *. rewrite app_length, map_length, repeat_length. lia.
  - intros i Hi. destruct (Z_lt_ge_dec i (zlen q)) as [K|K].
    + destruct (rd_ok q i ltac:(lia)) as (v & V). rewrite (H1 _ _ V). unfold rd, zlen in *. destruct (i <? 0)%Z; [discriminate|]. rewrite nth_error_app1 by (rewrite map_length; lia).
      symmetry. apply map_nth_error. exact V.
    + rewrite H2 by lia. rewrite Rops_z. unfold rd, zlen in *. destruct (i <? 0)%Z eqn:E; [lia|]. rewrite nth_error_app2 by (rewrite map_length; lia). rewrite map_length. symmetry. rewrite nth_error_repeat by lia. reflexivity.
Qed.

(** Product of the 1 - c^2, on the coefficients of the data. *)
Definition tns_damp (d : tns_data) : R := fold_right (fun q w => damp (map (rc_val Rops) q) * w) 1 (t_filters d).

Theorem synthesize_stable dt bw nbytes d x : tns_cfg dt bw -> (tns_end dt bw <= zlen x)%Z -> tns_ok dt bw nbytes d ->
  0 < tns_damp d /\
  exists y, tns_synthesize Rops dt bw d x = Some y /\ forall i v, rd y i = Some v -> v * v <= sumsq x / tns_damp d.
Proof.
  intros C L T. destruct (tns_ok_filters _ _ _ _ T) as [HQ Ln]. unfold tns_synthesize. destruct (synth_filters Rops (t_filters d) HQ) as (fs & S1 & S2). rewrite S1. cbn [bind].
  assert (HF : Forall stable_filter fs /\ all_damp fs = tns_damp d /\ 0 < tns_damp d).
  { unfold tns_damp. clear - S2 HQ. induction S2 as [|q p qs fs (A1 & A2 & A3 & A4) H IH].
    - spl; [constructor|reflexivity|cbn; lra].
    - inversion HQ as [|? ? [Q1 Q2] HQ']. subst. destruct (IH HQ') as (I1 & I2 & I3). pose proof (filter_list q (snd p) A2 Q2 A3 A4) as E.
      assert (FA : Forall (fun r => r * r < 1) (map (rc_val Rops) q)).
      { apply Forall_forall. intros r Hr. apply in_map_iff in Hr as (c & <- & Hc). rewrite Forall_forall in Q1. apply rc_val_sq. apply Q1. exact Hc. }
      assert (FA8 : Forall (fun r => r * r < 1) (snd p)).
      { rewrite E. apply Forall_app. split; [exact FA|]. apply Forall_forall. intros r Hr. apply repeat_spec in Hr. subst r. lra. }
      assert (D : damp (snd p) = damp (map (rc_val Rops) q)) by (rewrite E, damp_app, damp_zeros; ring).
      spl.
      + constructor; [|exact I1]. unfold stable_filter. rewrite A1. unfold zlen in *. auto with zarith.
      + cbn [all_damp fold_right]. fold (all_damp fs). rewrite I2, D. reflexivity.
      + cbn [fold_right]. apply Rmult_lt_0_compat; [apply damp_bounds; exact FA|exact I3]. }
  destruct HF as (F1 & F2 & F3). split; [exact F3|].
  destruct (inverse_stable dt bw fs x C L F1) as (y & Y1 & _ & _ & Y2); [apply F2len in S2; unfold zlen in *; lia|]. rewrite F2 in Y2. exists y. auto.
Qed.


(** ** Quantization *)
Definition thr (j : Z) : R := IZR (znth tns_q_thr j 0%Z) / 32768.
Lemma rc_ge_R v j : (0 <= j < 8)%Z -> rc_ge Rops v j = Some (Rleb (thr j) v).
Proof.
  intros Hj. unfold rc_ge. destruct (rd_ok tns_q_thr j) as (t & T); [exact Hj|]. rewrite T. cbn [bind]. unfold thr. rewrite (rd_znth _ _ _ T), Rops_dy, p15. reflexivity.
Qed.
Lemma thr_mono i j : (0 <= i <= j)%Z -> (j < 8)%Z -> thr i <= thr j.
Proof.
  intros Hi Hj. unfold thr. apply Rmult_le_compat_r; [lra|]. apply IZR_le.
  assert (K : forallb (fun p => implb (fst p <=? snd p)%Z (znth tns_q_thr (fst p) 0 <=? znth tns_q_thr (snd p) 0)%Z) (list_prod [0; 1; 2; 3; 4; 5; 6; 7] [0; 1; 2; 3; 4; 5; 6; 7])%Z = true) by (vm_compute; reflexivity).
  rewrite forallb_forall in K. specialize (K (i, j)). rewrite in_prod_iff in K. cbn [In fst snd] in K. specialize (K ltac:(lia)). replace (i <=? j)%Z with true in K by lia. cbn [implb] in K. lia.
Qed.
Lemma rc_search_R m n : forall q q', (0 <= q)%Z -> (q + Z.of_nat n <= 8)%Z -> rc_search Rops n m q = Some q' ->
  (q <= q' <= q + Z.of_nat n)%Z /\ (forall j, (q <= j < q')%Z -> thr j <= m) /\ ((q' < q + Z.of_nat n)%Z -> m < thr q').
Proof.
  induction n as [|n IH]; intros q q' H0 H1; cbn [rc_search]; [intros [= <-]; spl; try lia|]. rewrite rc_ge_R by lia. cbn [bind]. destruct (Rleb (thr q) m) eqn:E.
  - intros H. destruct (IH (q + 1)%Z q' ltac:(lia) ltac:(lia) H) as (A & B & D). apply Rleb_true in E. spl; [lia|lia| |].
    + intros j Hj. destruct (Z.eq_dec j q) as [->|N]; [exact E|]. apply B. lia.
    + intros Hq. apply D. lia.
  - intros [= <-]. spl; [lia|lia|intros j Hj; lia|]. intros _. unfold Rleb in E. destruct (Rle_dec (thr q) m); [discriminate|lra].
Qed.

Theorem quantize_spec v : exists q, quantize_rc1 Rops v = Some q /\ (-8 <= q <= 8)%Z /\
  (forall j, (0 <= j < Z.abs q)%Z -> thr j <= Rabs v) /\ (forall j, (Z.abs q <= j < 8)%Z -> Rabs v < thr j) /\
  (v < 0 -> (q <= 0)%Z) /\ (0 <= v -> (0 <= q)%Z).
Proof.
  destruct (quantize_rc1_ok Rops v) as (q & Q & B). exists q. split; [exact Q|]. split; [exact B|]. revert Q. unfold quantize_rc1. rewrite rc_ge_R by lia. cbn [bind]. change (f_abs Rops v) with (Rabs v). change (f_lt Rops) with Rltb. rewrite (Rops_z 0).
  destruct (rc_search Rops 4 (Rabs v) (4 * b2z (Rleb (thr 4) (Rabs v)))) as [m|] eqn:E; [|discriminate]. cbn [bind]. intros [= Q].
  assert (M : (0 <= m <= 8)%Z /\ (forall j, (0 <= j < m)%Z -> thr j <= Rabs v) /\ (forall j, (m <= j < 8)%Z -> Rabs v < thr j)).
  { destruct (Rleb (thr 4) (Rabs v)) eqn:E4; cbn [b2z] in E.
    - apply Rleb_true in E4. apply rc_search_R in E as (A & P & D); [|lia|lia]. spl; [lia|lia| |].
      + intros j Hj. destruct (Z_lt_ge_dec j 4) as [J|J]; [pose proof (thr_mono j 4 ltac:(lia) ltac:(lia)); lra|]. apply P. lia.
      + intros j Hj. pose proof (D ltac:(lia)). pose proof (thr_mono m j ltac:(lia) ltac:(lia)). lra.
    - assert (Rabs v < thr 4) by (unfold Rleb in E4; destruct (Rle_dec (thr 4) (Rabs v)); [discriminate|lra]). apply rc_search_R in E as (A & P & D); [|lia|lia]. spl; [lia|lia| |].
      + intros j Hj. apply P. lia.
      + intros j Hj. destruct (Z_lt_ge_dec m 4) as [J|J].
        * pose proof (D ltac:(lia)). pose proof (thr_mono m j ltac:(lia) ltac:(lia)). lra.
        * pose proof (thr_mono 4 j ltac:(lia) ltac:(lia)). lra. }
  destruct M as (M1 & M2 & M3). assert (AQ : Z.abs q = m) by (destruct (Rltb v 0); lia). rewrite AQ. spl; auto.
  - intros Hv. apply Rltb_true in Hv. rewrite Hv in Q. lia.
  - intros Hv. unfold Rltb in Q. destruct (Rlt_dec v 0); [lra|lia].
Qed.

(** Error of the quantization. *)
Lemma thr_inv_check : forallb (fun q => (q =? 0) || (znth tns_q_inv q 0 - 3023 <=? znth tns_q_thr (q - 1) 0))%Z [0; 1; 2; 3; 4; 5; 6; 7; 8]%Z &&
   forallb (fun q => znth tns_q_thr q 0 <=? znth tns_q_inv q 0 + 3023)%Z [0; 1; 2; 3; 4; 5; 6; 7]%Z && (32768 <=? znth tns_q_inv 8 0 + 3023)%Z && (0 <=? znth tns_q_inv 0 0)%Z && (znth tns_q_inv 0 0 <=? 3023)%Z = true.
Proof. vm_compute. reflexivity. Qed.

Lemma rc_val_abs q : Rabs (rc_val Rops q) = Rabs (IZR (znth tns_q_inv (Z.abs q) 0%Z) / 32768).
Proof. unfold rc_val. rewrite Rops_dy, p15. destruct (q <? 0)%Z; [cbn [f_opp Rops]; apply Rabs_Ropp|reflexivity]. Qed.

Theorem quantize_error v q : -1 <= v <= 1 -> quantize_rc1 Rops v = Some q -> Rabs (v - rc_val Rops q) <= 3023 / 32768.
Proof.
  intros Hv E. destruct (quantize_spec v) as (q' & E' & B & H1 & H2 & H3 & H4). assert (q' = q) by congruence. subst q'.
  pose proof thr_inv_check as K. apply andb_prop in K as [K K5]. apply andb_prop in K as [K K4]. apply andb_prop in K as [K K3]. apply andb_prop in K as [K K2]. rewrite forallb_forall in K, K2.
  assert (KT : forall a, (0 <= a < 8)%Z -> (znth tns_q_thr a 0 <= znth tns_q_inv a 0 + 3023)%Z).
  { intros a Ha. specialize (K2 a); cbn [In] in K2. specialize (K2 ltac:(lia)). lia. }
  specialize (K (Z.abs q)). cbn [In] in K. specialize (K ltac:(lia)).
  assert (K8 : (32768 <= znth tns_q_inv 8 0 + 3023)%Z) by lia. assert (K0 : (0 <= znth tns_q_inv 0 0 <= 3023)%Z) by lia.
  clear - Hv B H1 H2 H3 H4 K KT K8 K0.
  set (t := znth tns_q_inv (Z.abs q) 0%Z) in *.
  assert (U : Rabs v <= IZR t / 32768 + 3023 / 32768).
  { destruct (Z.eq_dec (Z.abs q) 8) as [N|N].
    - unfold t. rewrite N. apply IZR_le in K8. rewrite plus_IZR in K8. assert (Rabs v <= 1) by (apply Rabs_le; lra). lra.
    - pose proof (H2 (Z.abs q) ltac:(lia)) as A. pose proof (KT (Z.abs q) ltac:(lia)) as D. fold t in D. apply IZR_le in D. rewrite plus_IZR in D. unfold thr in A. lra. }
  assert (Lw : IZR t / 32768 - 3023 / 32768 <= Rabs v).
  { destruct (Z.eq_dec (Z.abs q) 0) as [N|N].
    - unfold t. rewrite N. destruct K0 as [_ K0]. apply IZR_le in K0. pose proof (Rabs_pos v). lra.
    - pose proof (H1 (Z.abs q - 1)%Z ltac:(lia)) as A. unfold thr in A. assert (D : (t - 3023 <= znth tns_q_thr (Z.abs q - 1) 0)%Z) by (unfold t; lia). apply IZR_le in D. rewrite minus_IZR in D. lra. }
  unfold rc_val. fold t. rewrite Rops_dy, p15. destruct (q <? 0)%Z eqn:Q.
  - assert (V : v < 0). { destruct (Rlt_le_dec v 0) as [V|V]; [exact V|]. specialize (H4 V). lia. } rewrite (Rabs_left v V) in *. cbn [f_opp Rops]. apply Rabs_le. lra.
  - destruct (Rlt_le_dec v 0) as [V|V].
    + specialize (H3 V). assert (q = 0%Z) by lia. subst q. change (Z.abs 0) with 0%Z in t. destruct K0 as [K0 K0']. fold t in K0, K0'.
      assert (T : t = 0%Z) by (vm_compute; reflexivity). rewrite T in *. rewrite (Rabs_left v V) in *. apply Rabs_le. lra.
    + rewrite (Rabs_right v) in * by lra. apply Rabs_le. lra.
Qed.

Lemma in9 a : (0 <= a <= 8)%Z -> In a [0; 1; 2; 3; 4; 5; 6; 7; 8]%Z.
Proof. intros H. cbn [In]. lia. Qed.

(** A coefficient of the table is its own quantization. *)
Theorem quantize_val q : (-8 <= q <= 8)%Z -> quantize_rc1 Rops (rc_val Rops q) = Some q.
Proof.
  intros B. destruct (quantize_spec (rc_val Rops q)) as (q' & E & B' & H1 & H2 & H3 & H4). rewrite E. f_equal.
  assert (KK : forallb (fun a => forallb (fun b => implb (a <? b) (znth tns_q_inv a 0 <? znth tns_q_thr (b - 1) 0) && implb (b <? a) (znth tns_q_thr b 0 <=? znth tns_q_inv a 0)) [0; 1; 2; 3; 4; 5; 6; 7; 8])%Z [0; 1; 2; 3; 4; 5; 6; 7; 8]%Z && forallb (fun a => (a =? 0) || (0 <? znth tns_q_inv a 0))%Z [0; 1; 2; 3; 4; 5; 6; 7; 8]%Z = true) by (vm_compute; reflexivity).
  apply andb_prop in KK as [KA KB]. rewrite forallb_forall in KA, KB. specialize (KA (Z.abs q) (in9 (Z.abs q) ltac:(clear - B; lia))). specialize (KB (Z.abs q) (in9 (Z.abs q) ltac:(clear - B; lia))). cbv beta in KA, KB.
  rewrite forallb_forall in KA. specialize (KA (Z.abs q') (in9 (Z.abs q') ltac:(clear - B'; lia))). cbv beta in KA. apply andb_prop in KA as [K1 K2].
  set (t := znth tns_q_inv (Z.abs q) 0%Z) in *.
  assert (KB' : (Z.abs q = 0 \/ 0 < t)%Z) by (apply orb_prop in KB as [KB|KB]; [left|right]; clear - KB; lia).
  assert (T0 : (0 <= t)%Z). { destruct KB' as [N|N]; [unfold t; rewrite N; vm_compute; discriminate|clear - N; lia]. }
  assert (RA : Rabs (rc_val Rops q) = IZR t / 32768). { rewrite rc_val_abs. fold t. apply Rabs_right. apply IZR_le in T0. lra. }
  rewrite RA in *.
  assert (AE : Z.abs q = Z.abs q').
  { destruct (Z_lt_ge_dec (Z.abs q) (Z.abs q')) as [L|L].
    - exfalso. replace (Z.abs q <? Z.abs q')%Z with true in K1 by lia. cbn [implb] in K1. pose proof (H1 (Z.abs q' - 1)%Z ltac:(lia)) as A. unfold thr in A.
      assert (D : (t < znth tns_q_thr (Z.abs q' - 1) 0)%Z) by lia. apply IZR_lt in D. lra.
    - destruct (Z_lt_ge_dec (Z.abs q') (Z.abs q)) as [L2|L2]; [|lia]. exfalso. replace (Z.abs q' <? Z.abs q)%Z with true in K2 by lia. cbn [implb] in K2. pose proof (H2 (Z.abs q') ltac:(lia)) as A. unfold thr in A.
      assert (D : (znth tns_q_thr (Z.abs q') 0 <= t)%Z) by lia. apply IZR_le in D. lra. }
  destruct (Z.eq_dec q 0) as [N|N]; [lia|]. assert (T1 : (0 < t)%Z) by (clear - N KB'; lia). apply IZR_lt in T1.
  unfold rc_val in H3, H4. fold t in H3, H4. rewrite Rops_dy, p15 in H3, H4. destruct (q <? 0)%Z eqn:Q; cbn [f_opp Rops] in H3, H4.
  - specialize (H3 ltac:(lra)). lia.
  - specialize (H4 ltac:(lra)). lia.
Qed.
