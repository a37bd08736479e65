(** * Round trip of the entropy coder, from the two simulations *)
From Coq Require Import ZArith List Bool Lia ZifyBool.
From Verif Require Import Base BaseProofs BitsModel BitsWriteSafe BitsAbstract BitsWriteSim.
From Verif Require Import BitsReadSim BitsReadSafe.
Import ListNotations.
Local Open Scope Z_scope.

(** Plain bits written by a sequence. *)
Definition wop_bits (o : wop) : Z := match o with PutBits _ n => n | PutSym _ _ => 0 end.
Definition wops_bits (ops : list wop) : Z := fold_right (fun o s => wop_bits o + s) 0 ops.

Lemma asteps_pos ops : forall a,
  a_pos (fold_left astep ops a) = a_pos a + wops_bits ops.
Proof.
  induction ops as [|o ops IH]; intros a; cbn [fold_left wops_bits fold_right]; [lia|].
  fold (wops_bits ops). rewrite IH. destruct o as [v n|m s]; cbn; lia.
Qed.

(** The frame produced by a sequence of operations. *)
Definition frame_of (buf : list Z) (ops : list wop) : list Z :=
  w_buf (flush_bits (fold_left wstep ops (w_setup buf))).

Lemma empty_left ops : Forall op_ok ops -> w_bits_left (fold_left wstep ops (w_setup [])) < 0.
Proof.
  intros Ho. assert (Hw : Forall wop_ok ops).
  { eapply Forall_impl; [|exact Ho]. exact op_wop_ok. }
  destruct (wsteps_WB _ _ _ Hw (w_setup_WB [] ltac:(constructor))) as (_ & H).
  change (w_bits_left (w_setup [])) with (-2) in H. lia.
Qed.

Lemma entropy_round_trip hw buf ops :
  bytes buf -> Forall op_ok ops ->
  w_check (fold_left wstep ops (w_setup buf)) = 0 ->
  exists r, rsteps (r_setup hw (frame_of buf ops)) ops = (map op_value ops, r) /\
    r_check r = 0 /\ r_oob r = false /\ r_ub r = false /\ r_stuck r = false /\
    RSim (bval (frame_of buf ops)) (zlen buf) r (fold_left astep ops a_init).
Proof.
  intros Hb Ho Hc. unfold w_check in Hc.
  destruct (w_bits_left (fold_left wstep ops (w_setup buf)) <? 0) eqn:E; [discriminate|].
  assert (HL : 1 <= zlen buf).
  { pose proof (zlen_nonneg buf). destruct (Z.eq_dec (zlen buf) 0) as [E0|]; [|lia].
    apply zlen_0 in E0. subst buf. pose proof (empty_left ops Ho). lia. }
  destruct (writer_sim buf ops Hb Ho ltac:(lia)) as (HF & EL & Hlen & Hby).
  fold (frame_of buf ops) in HF, Hlen, Hby.
  pose proof (RSim_init hw _ _ _ Hby Hlen eq_refl HL) as Hi.
  destruct (rsteps_sim _ _ ops _ _ Ho a_init_ok Hi HF) as (r & Er & Hr).
  exists r. split; [exact Er|].
  pose proof (RSim_left_ge _ _ _ _ Hr) as Hge. rewrite <- EL in Hge.
  destruct (rs_ra _ _ _ _ Hr). unfold r_check. rewrite (rs_err _ _ _ _ Hr).
  replace (r_bits_left r <? 0) with false by lia. auto 10.
Qed.

Lemma bits_left_agree hw buf ops1 ops2 :
  bytes buf -> Forall op_ok (ops1 ++ ops2) ->
  w_check (fold_left wstep (ops1 ++ ops2) (w_setup buf)) = 0 ->
  22 <= wops_bits ops1 ->
  r_bits_left (snd (rsteps (r_setup hw (frame_of buf (ops1 ++ ops2))) ops1)) =
  w_bits_left (fold_left wstep ops1 (w_setup buf)).
Proof.
  intros Hb Ho Hc H22. unfold w_check in Hc.
  destruct (w_bits_left (fold_left wstep (ops1 ++ ops2) (w_setup buf)) <? 0) eqn:E;
    [discriminate|].
  assert (HL : 1 <= zlen buf).
  { pose proof (zlen_nonneg buf). destruct (Z.eq_dec (zlen buf) 0) as [E0|]; [|lia].
    apply zlen_0 in E0. subst buf. pose proof (empty_left _ Ho). lia. }
  destruct (writer_sim buf _ Hb Ho ltac:(lia)) as (HF & EL & Hlen & Hby).
  fold (frame_of buf (ops1 ++ ops2)) in HF, Hlen, Hby.
  apply Forall_app in Ho. destruct Ho as (Ho1 & Ho2).
  assert (Hw1 : Forall wop_ok ops1) by (eapply Forall_impl; [exact op_wop_ok|exact Ho1]).
  assert (Hw2 : Forall wop_ok ops2) by (eapply Forall_impl; [exact op_wop_ok|exact Ho2]).
  rewrite fold_left_app in *.
  destruct (wsteps_WB _ _ _ Hw1 (w_setup_WB buf Hb)) as (HW1 & _).
  destruct (wsteps_WB _ _ _ Hw2 HW1) as (_ & Hmono). specialize (Hmono ltac:(lia)).
  destruct (writer_sim buf _ Hb Ho1 ltac:(lia)) as (_ & EL1 & _ & _).
  pose proof (asteps_ok _ _ Ho1 a_init_ok) as Ha1.
  pose proof (Fin_steps _ _ _ _ Ho2 Ha1 HF) as HF1.
  pose proof (RSim_init hw _ _ _ Hby Hlen eq_refl HL) as Hi.
  destruct (rsteps_sim _ _ ops1 _ _ Ho1 a_init_ok Hi HF1) as (r & Er & Hr).
  rewrite Er. cbn [snd]. rewrite EL1. apply (RSim_left _ _ _ _ Hr).
  assert (Hleft : 0 <= a_left (zlen buf) (fold_left astep ops1 a_init)) by lia.
  unfold a_left in Hleft.
  pose proof (range_bits_bounds _ (proj1 Ha1)) as Hrb.
  pose proof (asteps_pos ops1 a_init) as Hpos. change (a_pos a_init) with 0 in Hpos. lia.
Qed.

Lemma bval_bound2 buf : bytes buf -> 0 <= bval buf < 2 ^ (8 * zlen buf).
Proof.
  intros H. pose proof (bval_bound buf H) as Hr. pose proof (zlen_nonneg buf).
  rewrite <- pow256 by lia. exact Hr.
Qed.

Lemma read_safe hw buf ops :
  bytes buf -> Forall rop_ok ops ->
  let '(vs, r) := rdos (r_setup hw buf) ops in
  r_oob r = false /\ r_stuck r = false /\ Forall2 rval_ok ops vs /\
  65536 <= r_range r < 2 ^ 24 /\ 0 <= r_low r < 2 ^ 24.
Proof.
  intros Hb Ho. pose proof (rdos_RB _ ops _ Ho (r_setup_RB hw buf Hb)) as H.
  destruct (rdos (r_setup hw buf) ops) as [vs r]. destruct H as (Hv & H).
  destruct H. auto.
Qed.

Lemma read_no_ub hw buf ops :
  bytes buf -> 1 <= zlen buf -> Forall (fun o => rop_ok o /\ rop_bits o <= 31) ops ->
  rops_bits ops <= 8 * zlen buf ->
  r_ub (snd (rdos (r_setup hw buf) ops)) = false.
Proof.
  intros Hb HL Ho Hn.
  pose proof (RSim_init hw buf _ _ Hb eq_refl eq_refl HL) as Hi.
  apply (rdos_no_ub (bval buf) (zlen buf) ops).
  - exact Ho.
  - apply r_setup_RB. exact Hb.
  - exact (rs_ra _ _ _ _ Hi).
  - apply bval_bound2. exact Hb.
  - rewrite (rs_pos _ _ _ _ Hi). change (a_pos a_init) with 0. lia.
Qed.
