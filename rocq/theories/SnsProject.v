(** * The projection to the pyramid, in binary32: at most 6 pulses *)
From Coq Require Import ZArith Reals List Bool Lia Lra.
From Flocq Require Import Core.Core IEEE754.BinarySingleNaN Plus_error Relative.
From Verif Require Import Base ConfigModel SideModel SideSpec ShapeTables FloatOps FloatLaws LoopProofs TnsProofs BandModel BandProofs F32Model F32Proofs SnsModel SnsProofs SnsMain SnsFloat.
Import ListNotations.
Local Open Scope R_scope.

Definition uro : R := p2 (-24).
Lemma uro_small : 0 < uro <= / 10000000.
Proof. unfold uro. split; [apply bpow_gt_0|]. change (p2 (-24)) with (/ IZR 16777216). apply Rinv_le; lra. Qed.
Lemma uro_eq : u_ro radix2 24 = uro.
Proof. unfold u_ro, uro. change (- (24) + 1)%Z with (1 + -24)%Z. rewrite bpow_plus. change (p2 1) with 2. lra. Qed.

(** Sum of two numbers: relative error, also for the subnormal numbers. *)
Lemma add_rel x y : fin x -> fin y -> Rabs (rnd32 (val x + val y)) < p2 128 -> 0 <= val x -> 0 <= val y ->
  (1 - uro) * (val x + val y) <= val (Add x y).
Proof.
  intros Fx Fy H Px Py. destruct (add_val x y Fx Fy H) as (_ & ->).
  destruct (FLT_plus_error_N_ex radix2 (-149) 24 (fun x => negb (Z.even x)) (val x) (val y) (fmt_val x) (fmt_val y)) as (eps & He & E). change (round radix2 (FLT_exp (-149) 24) ZnearestE (val x + val y)) with (rnd32 (val x + val y)) in E.
  rewrite E, Rmult_comm. apply Rmult_le_compat_l; [lra|]. pose proof (u_rod1pu_ro_le_u_ro radix2 24) as U. rewrite uro_eq in *. apply Rabs_le_inv in He. lra.
Qed.

Definition vsum (l : list f32) : R := fold_right Rplus 0 (map val l).
Lemma vsum_cons v l : vsum (v :: l) = val v + vsum l. Proof. reflexivity. Qed.

Lemma vsum_pos l : Forall (fun v => 0 <= val v) l -> 0 <= vsum l.
Proof. induction 1 as [|v l H _ IH]; [unfold vsum; cbn; lra|]. rewrite vsum_cons. lra. Qed.

Lemma sum_bnd l : forall s k, (0 <= k)%Z -> (k + Z.of_nat (length l) <= 64)%Z -> bnd k 34 s -> 0 <= val s -> Forall (fun v => bnd 1 34 v /\ 0 <= val v) l ->
  bnd (k + Z.of_nat (length l)) 34 (fold_left Add l s) /\ (1 - uro) ^ length l * (val s + vsum l) <= val (fold_left Add l s).
Proof.
  pose proof uro_small as U. induction l as [|v l IH]; intros s k Hk Hl Bs Ps H.
  - cbn [fold_left length]. rewrite Z.add_0_r. split; [exact Bs|]. unfold vsum. cbn [map fold_right pow]. lra.
  - inversion H as [|? ? (Bv & Pv) Hl']; subst. cbn [fold_left length]. cbn [length] in Hl.
    assert (K : kok (k + 1) 34) by (unfold kok; lia).
    assert (B1 : bnd (k + 1) 34 (Add s v)) by (apply bnd_add; auto).
    assert (O : Rabs (rnd32 (val s + val v)) < p2 128).
    { apply (rnd_bnd _ _ _ K). eapply Rle_trans; [apply Rabs_triang|]. rewrite plus_IZR. destruct Bs as (_ & Bs), Bv as (_ & Bv). lra. }
    pose proof (add_rel s v (proj1 Bs) (proj1 Bv) O Ps Pv) as R1.
    assert (P1 : 0 <= val (Add s v)) by (eapply Rle_trans; [|exact R1]; apply Rmult_le_pos; lra).
    destruct (IH (Add s v) (k + 1)%Z ltac:(lia) ltac:(lia) B1 P1 Hl') as (B2 & R2). split; [replace (k + Z.of_nat (S (length l)))%Z with (k + 1 + Z.of_nat (length l))%Z by lia; exact B2|].
    eapply Rle_trans; [|exact R2]. cbn [pow]. rewrite vsum_cons.
    assert (Pl : 0 <= vsum l) by (apply vsum_pos; eapply Forall_impl; [|exact Hl']; intros w (_ & A); exact A).
    assert (Q0 : 0 <= (1 - uro) ^ length l) by (apply pow_le; lra).
    replace ((1 - uro) * (1 - uro) ^ length l * (val s + (val v + vsum l))) with ((1 - uro) ^ length l * ((1 - uro) * (val s + val v) + (1 - uro) * vsum l)) by ring.
    apply Rmult_le_compat_l; [exact Q0|]. assert ((1 - uro) * vsum l <= 1 * vsum l) by (apply Rmult_le_compat_r; lra). lra.
Qed.

(** floorf and the conversion. *)
Lemma floor_val x : fin x -> 0 <= val x -> val x < 1000 -> f32_floor x = Some (Zfloor (val x)).
Proof.
  intros Fx Px Lx. assert (I : (0 <= Zfloor (val x) < 1000)%Z).
  { split; [apply Zfloor_lub; exact Px|]. apply lt_IZR. eapply Rle_lt_trans; [apply Zfloor_lb|exact Lx]. }
  destruct x as [s|s| |s m e Hb]; try discriminate Fx.
  - unfold val. cbn [f32_floor B2R]. rewrite (Zfloor_IZR 0). reflexivity.
  - cbn [f32_floor]. assert (E : (if (0 <=? e)%Z then (if s then - Z.pos m else Z.pos m) * 2 ^ e else (if s then - Z.pos m else Z.pos m) / 2 ^ (- e))%Z = Zfloor (val (B754_finite s m e Hb))).
    { unfold val. cbn [B2R]. unfold F2R. cbn [Fnum Fexp]. change (cond_Zopp s (Z.pos m)) with (if s then - Z.pos m else Z.pos m)%Z. set (z := if s then (- Z.pos m)%Z else Z.pos m). destruct (0 <=? e)%Z eqn:C.
      - rewrite <- IZR_Zpower by lia. rewrite <- mult_IZR, Zfloor_IZR. reflexivity.
      - replace e with (- - e)%Z at 2 by lia. rewrite bpow_opp, <- IZR_Zpower by lia. fold (Rdiv (IZR z) (IZR (Zpower radix2 (- e)))). rewrite Zfloor_div; [reflexivity|].
        change (Zpower radix2 (- e)) with (2 ^ (- e))%Z. pose proof (Z.pow_pos_nonneg 2 (- e)). lia. }
    rewrite E. unfold f32_int. destruct (-2 ^ 31 <=? _)%Z eqn:C1; [|lia]. destruct (_ <? 2 ^ 31)%Z eqn:C2; [|lia]. reflexivity.
Qed.

(** fmaxf of numbers. *)
Lemma max_val x y : fin x -> fin y -> fin (f32_max x y) /\ val (f32_max x y) = Rmax (val x) (val y).
Proof.
  intros Fx Fy. unfold f32_max. replace (f32_nan x) with false by (destruct x; auto; discriminate). replace (f32_nan y) with false by (destruct y; auto; discriminate).
  rewrite Bltb_correct by assumption. fold (val x) (val y). destruct (Rlt_bool_spec (val x) (val y)) as [H|H]; [rewrite Rmax_right by lra|rewrite Rmax_left by lra]; auto.
Qed.

Lemma norm_rel r : p2 (-126) <= r -> rnd32 r <= (1 + uro) * r.
Proof.
  intros H. assert (P : 0 < r) by (pose proof (bpow_gt_0 radix2 (-126)); lra).
  pose proof (relative_error_N_FLT radix2 (-149) 24 ltac:(reflexivity) (fun x => negb (Z.even x)) r) as E. rewrite Rabs_pos_eq in E by lra. specialize (E H).
  change (round radix2 (FLT_exp (-149) 24) ZnearestE r) with (rnd32 r) in E. fold (u_ro radix2 24) in E. rewrite uro_eq in E. apply Rabs_le_inv in E. lra.
Qed.

Lemma floor_rel r : 0 <= r -> IZR (Zfloor (rnd32 r)) <= (1 + uro) * r.
Proof.
  pose proof uro_small as U. intros H. destruct (Rle_or_lt (p2 (-126)) r) as [K|K].
  - eapply Rle_trans; [apply Zfloor_lb|]. apply norm_rel, K.
  - assert (A : rnd32 r <= p2 (-126)).
    { apply round_le_generic; [apply vexp32|apply valid_rnd_N| |lra]. replace (p2 (-126)) with (IZR 1 * p2 (-126)) by lra. apply fmt_Zp; lia. }
    assert (B : (Zfloor (rnd32 r) < 1)%Z).
    { apply lt_IZR. eapply Rle_lt_trans; [apply Zfloor_lb|]. eapply Rle_lt_trans; [exact A|]. change 1 with (p2 0). apply bpow_lt. lia. }
    assert (C : IZR (Zfloor (rnd32 r)) <= 0) by (apply IZR_le; lia). assert (0 <= (1 + uro) * r) by (apply Rmult_le_pos; lra). lra.
Qed.

Lemma rnd_pos r : 0 <= r -> 0 <= rnd32 r.
Proof. intros H. rewrite <- (round_0 radix2 fexp32 ZnearestE). apply round_le; [apply vexp32|apply valid_rnd_N|exact H]. Qed.

Definition t31 : f32 := f32_dy 8507059 126.
Lemma t31_val : fin t31 /\ p2 (-104) <= val t31 <= 1.
Proof.
  destruct (dy_exact 8507059 126) as (A & B); [lia|lia|]. split; [exact A|]. unfold t31. rewrite B. split.
  - replace (-104)%Z with (22 + - (126))%Z by lia. rewrite bpow_plus. apply Rmult_le_compat_r; [apply bpow_ge_0|]. change (p2 22) with (IZR (2 ^ 22)). apply IZR_le. lia.
  - replace 1 with (p2 126 * p2 (- (126))) by (rewrite <- bpow_plus; reflexivity). apply Rmult_le_compat_r; [apply bpow_ge_0|]. apply Rle_trans with (IZR (2 ^ 24)); [apply IZR_le; lia|]. change (IZR (2 ^ 24)) with (p2 24). apply bpow_le. lia.
Qed.

Lemma project_floors xm s : length xm = 16%nat -> Forall (fun v => bnd 1 34 v /\ 0 <= val v) xm -> s = fold_left Add xm (f32_dy 0 0) ->
  exists ks, length ks = 16%nat /\ nonneg ks /\ (zsum ks <= 5)%Z /\ Forall2 (fun v k => f32_floor (Mul v (Div (f32_dy 5 0) (f32_max s t31))) = Some k) xm ks.
Proof.
  intros L H ->. pose proof uro_small as U. set (s := fold_left Add xm (f32_dy 0 0)).
  destruct (sum_bnd xm (f32_dy 0 0) 0 ltac:(lia) ltac:(rewrite L; lia)) as (Bs & Rs).
  { split; [reflexivity|]. change (val (f32_dy 0 0)) with 0. rewrite Rabs_R0. lra. }
  { change (val (f32_dy 0 0)) with 0. lra. }
  { exact H. }
  fold s in Bs, Rs. rewrite L in Bs, Rs. change (val (f32_dy 0 0)) with 0 in Rs. rewrite Rplus_0_l in Rs. destruct Bs as (Fs & Bs).
  assert (Pv : 0 <= vsum xm) by (apply vsum_pos; eapply Forall_impl; [|exact H]; intros w (_ & A); exact A).
  assert (Q : 9 / 10 <= (1 - uro) ^ 16).
  { apply Rle_trans with ((999 / 1000) ^ 16); [cbn [pow]; lra|]. apply pow_incr. lra. }
  assert (Rs' : 9 / 10 * vsum xm <= val s) by (eapply Rle_trans; [|exact Rs]; apply Rmult_le_compat_r; lra).
  destruct t31_val as (Ft & Tt). destruct (max_val s t31 Fs Ft) as (Fm & Em). set (m := f32_max s t31) in *.
  assert (M1 : val s <= val m) by (rewrite Em; apply Rmax_l). assert (M2 : p2 (-104) <= val m) by (rewrite Em; eapply Rle_trans; [apply Tt|apply Rmax_r]).
  assert (M3 : val m <= p2 39).
  { rewrite Em. apply Rmax_lub; [|eapply Rle_trans; [apply Tt|]; change 1 with (p2 0); apply bpow_le; lia]. apply Rle_trans with (Rabs (val s)); [apply RRle_abs|]. eapply Rle_trans; [exact Bs|].
    change (0 + Z.of_nat 16)%Z with 16%Z. replace (IZR 16) with (p2 4) by reflexivity. rewrite <- bpow_plus. apply bpow_le. lia. }
  assert (M0 : 0 < val m) by (pose proof (bpow_gt_0 radix2 (-104)); lra).
  destruct (dy_exact 5 0) as (F5 & V5); [lia|lia|]. change (p2 (- 0)) with 1 in V5. rewrite Rmult_1_r in V5.
  set (r := 5 / val m). assert (R0 : 0 < r) by (unfold r; apply Rdiv_lt_0_compat; lra).
  assert (R1 : p2 (-126) <= r).
  { apply Rle_trans with (1 / p2 39); [rewrite <- (Rmult_1_l (/ p2 39)) at 1 || idtac; unfold Rdiv; rewrite Rmult_1_l, <- bpow_opp; apply bpow_le; lia|].
    unfold r, Rdiv. apply Rmult_le_compat; [lra|left; apply Rinv_0_lt_compat, bpow_gt_0|lra|apply Rinv_le; lra]. }
  assert (R2 : r <= IZR 5 * p2 100 * 16).
  { unfold r, Rdiv. rewrite Rmult_assoc. apply Rmult_le_compat_l; [lra|]. apply Rle_trans with (/ p2 (-104)); [apply Rinv_le; [apply bpow_gt_0|exact M2]|]. rewrite <- bpow_opp. change (- (-104))%Z with (100 + 4)%Z. rewrite bpow_plus. change (p2 4) with 16. lra. }
  assert (R3 : Rabs (rnd32 r) <= IZR 80 * p2 100 /\ Rabs (rnd32 r) < p2 128).
  { apply rnd_bnd; [unfold kok; lia|]. rewrite Rabs_pos_eq by lra. lra. }
  destruct (div_val (f32_dy 5 0) m F5 ltac:(lra)) as (Fp & Vp); [rewrite V5; apply R3|]. rewrite V5 in Vp. fold r in Vp. set (pf := Div (f32_dy 5 0) m) in *.
  assert (P1 : val pf <= (1 + uro) * r) by (rewrite Vp; apply norm_rel, R1). assert (P0 : 0 <= val pf) by (rewrite Vp; apply rnd_pos; lra).
  assert (T : val pf * vsum xm <= 57 / 10).
  { apply Rle_trans with ((1 + uro) * r * vsum xm); [apply Rmult_le_compat_r; lra|]. unfold r.
    apply Rle_trans with ((1 + uro) * (5 / val m) * (10 / 9 * val m)); [apply Rmult_le_compat_l; [apply Rmult_le_pos; [lra|fold r; lra]|lra]|].
    replace ((1 + uro) * (5 / val m) * (10 / 9 * val m)) with ((1 + uro) * (50 / 9)) by (field; lra). lra. }
  (* each number *)
  assert (G : forall v, bnd 1 34 v -> 0 <= val v -> val v <= vsum xm -> f32_floor (Mul v pf) = Some (Zfloor (rnd32 (val v * val pf)))).
  { intros v (Fv & _) Hv Lv. assert (A : val v * val pf <= 57 / 10) by (rewrite Rmult_comm; eapply Rle_trans; [apply Rmult_le_compat_l; [exact P0|exact Lv]|exact T]).
    assert (A0 : 0 <= val v * val pf) by (apply Rmult_le_pos; assumption).
    destruct (rnd_bnd (val v * val pf) 8 0) as (B1 & B2); [unfold kok; lia|rewrite Rabs_pos_eq by exact A0; change (p2 0) with 1; lra|].
    destruct (mul_val v pf Fv Fp B2) as (C1 & C2). rewrite <- C2. apply floor_val; [exact C1|rewrite C2; apply rnd_pos, A0|]. rewrite C2. eapply Rle_lt_trans; [apply RRle_abs|]. eapply Rle_lt_trans; [exact B1|]. change (p2 0) with 1. lra. }
  exists (map (fun v => Zfloor (rnd32 (val v * val pf))) xm). rewrite map_length. split; [exact L|].
  assert (W : forall l, Forall (fun v => bnd 1 34 v /\ 0 <= val v) l -> nonneg (map (fun v => Zfloor (rnd32 (val v * val pf))) l) /\ IZR (zsum (map (fun v => Zfloor (rnd32 (val v * val pf))) l)) <= (1 + uro) * (val pf * vsum l)).
  { induction 1 as [|v l (Bv & Hv) Hl (IH1 & IH2)]; [split; [constructor|cbn; unfold vsum; cbn; lra]|]. cbn [map]. split; [constructor; [apply Zfloor_lub, rnd_pos, Rmult_le_pos; assumption|exact IH1]|].
    unfold zsum. cbn [fold_right]. fold (zsum (map (fun v => Zfloor (rnd32 (val v * val pf))) l)). rewrite plus_IZR, vsum_cons. pose proof (floor_rel (val v * val pf) (Rmult_le_pos _ _ Hv P0)).
    replace ((1 + uro) * (val pf * (val v + vsum l))) with ((1 + uro) * (val v * val pf) + (1 + uro) * (val pf * vsum l)) by ring. lra. }
  destruct (W xm H) as (W1 & W2). split; [exact W1|]. split.
  - enough (zsum (map (fun v => Zfloor (rnd32 (val v * val pf))) xm) < 6)%Z by lia. apply lt_IZR. eapply Rle_lt_trans; [exact W2|].
    apply Rle_lt_trans with ((1 + uro) * (57 / 10)); [apply Rmult_le_compat_l; lra|lra].
  - assert (V : forall l, Forall (fun v => bnd 1 34 v /\ 0 <= val v) l -> vsum l <= vsum xm -> Forall2 (fun v k => f32_floor (Mul v pf) = Some k) l (map (fun v => Zfloor (rnd32 (val v * val pf))) l)).
    { induction 1 as [|v l (Bv & Hv) Hl IH]; intros Lv; [constructor|]. rewrite vsum_cons in Lv. cbn [map]. assert (0 <= vsum l) by (apply vsum_pos; eapply Forall_impl; [|exact Hl]; intros w (_ & A); exact A).
      constructor; [apply G; auto; lra|apply IH; lra]. }
    apply V; [exact H|lra].
Qed.

Lemma F2_rd_pairs {A B} (R : A -> B -> Prop) l l' : Forall2 R l l' -> forall i v, rd l i = Some v -> exists k, rd l' i = Some k /\ R v k.
Proof.
  intros H i v. unfold rd. destruct (i <? 0)%Z; [discriminate|]. generalize (Z.to_nat i). clear i. induction H as [|a b l l' Hab _ IH]; intros n Hn; destruct n; try discriminate Hn; cbn [nth_error] in *.
  - injection Hn as <-. eauto.
  - apply IH, Hn.
Qed.

Theorem f32_analysis_ok nan junk dt sr nbytes eb att : tns_cfg dt sr -> zlen eb = num_bands dt sr ->
  analysis_ok (f32_ops nan) junk dt sr nbytes eb att.
Proof.
  intros C L scf lf hf E Hl Hh lfcb hfcb r x xm s El Eh Er Ex Em.
  destruct (compute_ok (f32_ops nan) junk dt sr nbytes eb att C L) as (scf' & E' & Ls). rewrite E in E'. apply some_inj in E'. subst scf'.
  pose proof (compute_bnd _ _ (f32_laws nan) junk dt sr nbytes eb att scf C L E) as B1.
  pose proof (residual_bnd _ _ (f32_laws nan) scf lf hf lfcb hfcb r B1 El Eh Er) as B2.
  pose proof (dct_bnd _ _ (f32_laws nan) r x B2 Ex) as B3.
  destruct (mat_row 32 8 sns_lfcb lf lfcb_mat Hl) as (c & Ec & Ll). rewrite El in Ec. injection Ec as <-.
  destruct (mat_row 32 8 sns_hfcb hf hfcb_mat Hh) as (c & Ec & Lh). rewrite Eh in Ec. injection Ec as <-.
  destruct (residual_ok (f32_ops nan) scf lfcb hfcb Ls Ll Lh) as (r' & Er' & Lr). rewrite Er in Er'. apply some_inj in Er'. subst r'.
  destruct (dct16_forward_ok (f32_ops nan) r Lr) as (x' & Ex' & Lx). rewrite Ex in Ex'. apply some_inj in Ex'. subst x'.
  destruct (magnitudes_bnd _ _ (f32_laws nan) x xm s B3 Em) as (B4 & _).
  destruct (magnitudes_eq (f32_ops nan) x xm s Lx Em) as (Lm & Exm & Es). clear Em Ex Er E B1 B2.
  destruct (project_floors xm s) as (ks & Lk & Nk & Sk & Hk).
  - unfold zlen in Lm. lia.
  - apply Forall_forall. intros v Hv. split.
    + apply In_nth_error in Hv as (n & Hn). apply (B4 (Z.of_nat n)). unfold rd. destruct (Z.of_nat n <? 0)%Z eqn:D; [lia|]. rewrite Nat2Z.id. exact Hn.
    + rewrite Exm in Hv. apply in_map_iff in Hv as (w & <- & _). change (0 <= val (Babs w)). unfold val. rewrite B2R_Babs. apply Rabs_pos.
  - exact Es.
  - exists ks. spl; [unfold zlen; lia|exact Nk|lia|]. intros i v Hi Hv. destruct (F2_rd_pairs _ _ _ Hk i v Hv) as (k & -> & Ek). exact Ek.
Qed.
