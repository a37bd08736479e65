(** * Side data anywhere in a frame *)
From Coq Require Import ZArith List Bool Lia ZifyBool.
From Verif Require Import Base BaseProofs BitsModel BitsWriteSafe BitsAbstract BitsWriteSim.
From Verif Require Import BitsReadSim BitsReadSafe BitsRoundTrip ConfigModel.
From Verif Require Import SideModel SideSpec SideProofs PvqModel PvqProofs.
Import ListNotations.
Local Open Scope Z_scope.

(** Reader of a finished frame, after the operations [pre]. *)
Lemma frame_reads {A} hw buf pre ops post (get : rst -> A * rst) v :
  bytes buf -> Forall op_ok pre -> Forall op_ok ops -> Forall op_ok post ->
  Reads get ops v ->
  let w := fold_left wstep post (fold_left wstep ops (fold_left wstep pre (w_setup buf))) in
  w_check w = 0 ->
  exists r', get (snd (rsteps (r_setup hw (w_buf (flush_bits w))) pre)) = (v, r') /\
    r_oob r' = false /\ r_ub r' = false /\ r_stuck r' = false.
Proof.
  intros Hb H1 H2 H3 HR w Hc. unfold w in *. clear w.
  rewrite <- !fold_left_app in *.
  assert (Ho : Forall op_ok ((pre ++ ops) ++ post)).
  { apply Forall_app. split; [apply Forall_app; auto|auto]. }
  rewrite <- app_assoc in *.
  set (all := pre ++ ops ++ post) in *.
  unfold w_check in Hc.
  destruct (w_bits_left (fold_left wstep all (w_setup buf)) <? 0) eqn:E; [discriminate|].
  assert (HL : 1 <= zlen buf).
  { pose proof (zlen_nonneg buf). destruct (Z.eq_dec (zlen buf) 0) as [E0|]; [|lia].
    apply zlen_0 in E0. subst buf. pose proof (empty_left _ Ho). lia. }
  destruct (writer_sim buf all Hb Ho ltac:(lia)) as (HF & _ & Hlen & Hby).
  pose proof (RSim_init hw _ _ _ Hby Hlen eq_refl HL) as Hi.
  set (F := w_buf (flush_bits (fold_left wstep all (w_setup buf)))) in *. clearbody F.
  unfold all in HF. rewrite !fold_left_app in HF.
  pose proof (asteps_ok _ _ H1 a_init_ok) as Ha1.
  pose proof (asteps_ok _ _ H2 Ha1) as Ha2.
  pose proof (Fin_steps _ _ _ _ H3 Ha2 HF) as HF2.
  pose proof (Fin_steps _ _ _ _ H2 Ha1 HF2) as HF1.
  destruct (rsteps_sim _ _ pre _ _ H1 a_init_ok Hi HF1) as (r & Er & Hr).
  rewrite Er. cbn [snd].
  destruct (HR _ _ _ _ Ha1 Hr HF2) as (r' & E' & Hr').
  exists r'. split; [exact E'|]. destruct (rs_ra _ _ _ _ Hr'). auto.
Qed.

(** Reader of arbitrary bytes, after arbitrary reads. *)
Lemma bytes_safe {A} hw buf rops (get : rst -> A * rst) post :
  bytes buf -> Forall rop_ok rops -> Safe get post ->
  let '(v, r') := get (snd (rdos (r_setup hw buf) rops)) in
  post v /\ r_oob r' = false /\ r_stuck r' = false.
Proof.
  intros Hb Ho HS. pose proof (rdos_RB _ rops _ Ho (r_setup_RB hw buf Hb)) as H.
  destruct (rdos (r_setup hw buf) rops) as [vs r]. cbn [snd]. destruct H as (_ & H).
  specialize (HS _ _ H). destruct (get r) as [v r']. destruct HS as (Hp & HB).
  destruct HB. auto.
Qed.

Lemma get_bw_reject r sr : 0 < bw_nbits sr -> sr < fst (get_bits r (bw_nbits sr)) ->
  fst (get_bw r sr) = (-1, sr).
Proof.
  intros H1 H2. unfold get_bw. replace (bw_nbits sr <=? 0) with false by lia.
  destruct (get_bits r (bw_nbits sr)) as [v r']. cbn [fst] in H2.
  replace (sr <? v) with true by lia. reflexivity.
Qed.

(** Pulse configuration of valid noise shaping data. *)
Lemma sns_vector d : sns_ok d ->
  exists c, deenumerate (s_shape d) (s_idx_a d) (s_ls_a d =? 1) (s_idx_b d) (s_ls_b d =? 1) = Some c /\
    config_ok (s_shape d) c.
Proof.
  intros (_ & _ & Hs & _ & Ha & _ & Hb).
  destruct (deenumerate_ok (s_shape d) (s_idx_a d) (s_ls_a d =? 1) (s_idx_b d) (s_ls_b d =? 1)
    Hs Ha ltac:(intros E; apply Hb in E; lia)) as (c & H1 & H2 & _).
  exists c. auto.
Qed.
