(** * A reading function inside a frame, and the bits that remain *)
From Coq Require Import ZArith List Bool Lia ZifyBool.
From Verif Require Import Base BaseProofs BitsModel BitsWriteSafe BitsAbstract BitsWriteSim.
From Verif Require Import BitsReadSim BitsReadSafe BitsRoundTrip SideProofs.
Import ListNotations.
Local Open Scope Z_scope.

Definition clean (r : rst) : Prop := r_oob r = false /\ r_ub r = false /\ r_stuck r = false.

(** State of the reader after a part [get] of the frame. *)
Lemma frame_reads_left {A} hw buf pre ops post (get : rst -> A * rst) v :
  bytes buf -> Forall op_ok pre -> Forall op_ok ops -> Forall op_ok post ->
  Reads get ops v ->
  let w1 := fold_left wstep ops (fold_left wstep pre (w_setup buf)) in
  let w := fold_left wstep post w1 in
  w_check w = 0 ->
  exists r', get (snd (rsteps (r_setup hw (w_buf (flush_bits w))) pre)) = (v, r') /\
    clean r' /\ r_error r' = false /\ 0 <= w_bits_left w1 <= r_bits_left r' /\
    (22 <= wops_bits pre -> r_bits_left r' = w_bits_left w1).
Proof.
  intros Hb H1 H2 H3 HR w1 w Hc. unfold w, w1 in *. clear w w1.
  rewrite <- !fold_left_app in *.
  assert (Ho12 : Forall op_ok (pre ++ ops)) by (apply Forall_app; auto).
  assert (Ho : Forall op_ok ((pre ++ ops) ++ post)) by (apply Forall_app; auto).
  unfold w_check in Hc.
  destruct (w_bits_left (fold_left wstep (pre ++ ops ++ post) (w_setup buf)) <? 0) eqn:E; [discriminate|].
  rewrite app_assoc in *.
  assert (HL : 1 <= zlen buf).
  { pose proof (zlen_nonneg buf). destruct (Z.eq_dec (zlen buf) 0) as [E0|]; [|lia].
    apply zlen_0 in E0. subst buf. pose proof (empty_left _ Ho). lia. }
  destruct (writer_sim buf _ Hb Ho ltac:(lia)) as (HF & _ & Hlen & Hby).
  assert (Hw1 : Forall wop_ok (pre ++ ops)) by (eapply Forall_impl; [exact op_wop_ok|exact Ho12]).
  assert (Hw2 : Forall wop_ok post) by (eapply Forall_impl; [exact op_wop_ok|exact H3]).
  destruct (wsteps_WB _ _ _ Hw1 (w_setup_WB buf Hb)) as (HW1 & _).
  destruct (wsteps_WB _ _ _ Hw2 HW1) as (_ & Hmono).
  rewrite <- fold_left_app in Hmono. specialize (Hmono ltac:(lia)).
  destruct (writer_sim buf _ Hb Ho12 ltac:(lia)) as (_ & EL1 & _ & _).
  pose proof (RSim_init hw _ _ _ Hby Hlen eq_refl HL) as Hi.
  set (F := w_buf (flush_bits (fold_left wstep ((pre ++ ops) ++ post) (w_setup buf)))) in *. clearbody F.
  rewrite (fold_left_app astep (pre ++ ops)) in HF.
  rewrite (fold_left_app astep pre ops) in HF, EL1.
  pose proof (asteps_ok _ _ H1 a_init_ok) as Ha1.
  pose proof (asteps_ok _ _ H2 Ha1) as Ha2.
  pose proof (Fin_steps _ _ _ _ H3 Ha2 HF) as HF2.
  pose proof (Fin_steps _ _ _ _ H2 Ha1 HF2) as HF1.
  destruct (rsteps_sim _ _ pre _ _ H1 a_init_ok Hi HF1) as (r & Er & Hr).
  rewrite Er. cbn [snd].
  destruct (HR _ _ _ _ Ha1 Hr HF2) as (r' & E' & Hr').
  exists r'. split; [exact E'|]. split; [destruct (rs_ra _ _ _ _ Hr'); unfold clean; auto|].
  split; [exact (rs_err _ _ _ _ Hr')|].
  pose proof (RSim_left_ge _ _ _ _ Hr') as Hge. rewrite EL1 in *.
  split; [lia|]. intros H22. apply (RSim_left _ _ _ _ Hr').
  assert (Hleft : 0 <= a_left (zlen buf) (fold_left astep ops (fold_left astep pre a_init))) by lia.
  unfold a_left in Hleft.
  pose proof (range_bits_bounds _ (proj1 Ha2)) as Hrb.
  pose proof (asteps_pos ops (fold_left astep pre a_init)) as Hpos1.
  pose proof (asteps_pos pre a_init) as Hpos. change (a_pos a_init) with 0 in Hpos.
  assert (0 <= wops_bits ops).
  { clear - H2. induction H2 as [|o ops Ho _ IH]; cbn; [lia|]. fold (wops_bits ops).
    destruct o; cbn in *; lia. }
  lia.
Qed.

(** A part [get1] of a frame from the start, then [get2] that depends on the count of
    bits that remain, the same in the writer and in the reader. *)
Lemma frame_reads_tail {A B} hw buf ops1 ops2 (get1 : rst -> A * rst) (get2 : Z -> A -> rst -> B * rst) v1 v2 :
  bytes buf -> Forall op_ok ops1 -> Forall op_ok ops2 -> 22 <= wops_bits ops1 ->
  let w1 := fold_left wstep ops1 (w_setup buf) in
  let w := fold_left wstep ops2 w1 in
  Reads get1 ops1 v1 -> Reads (get2 (w_bits_left w1) v1) ops2 v2 ->
  w_check w = 0 ->
  exists r1 r2, get1 (r_setup hw (w_buf (flush_bits w))) = (v1, r1) /\
    r_bits_left r1 = w_bits_left w1 /\ get2 (r_bits_left r1) v1 r1 = (v2, r2) /\
    clean r2 /\ r_error r2 = false /\ 0 <= r_bits_left r2 /\ 0 <= w_bits_left w1.
Proof.
  intros Hb H1 H2 H22 w1 w R1 R2 Hc. unfold w, w1 in *. clear w w1.
  rewrite <- (fold_left_app wstep ops1 ops2) in *.
  assert (Ho : Forall op_ok (ops1 ++ ops2)) by (apply Forall_app; auto).
  unfold w_check in Hc.
  destruct (w_bits_left (fold_left wstep (ops1 ++ ops2) (w_setup buf)) <? 0) eqn:E; [discriminate|].
  assert (HL : 1 <= zlen buf).
  { pose proof (zlen_nonneg buf). destruct (Z.eq_dec (zlen buf) 0) as [E0|]; [|lia].
    apply zlen_0 in E0. subst buf. pose proof (empty_left _ Ho). lia. }
  destruct (writer_sim buf _ Hb Ho ltac:(lia)) as (HF & EL & Hlen & Hby).
  assert (Hw1 : Forall wop_ok ops1) by (eapply Forall_impl; [exact op_wop_ok|exact H1]).
  assert (Hw2 : Forall wop_ok ops2) by (eapply Forall_impl; [exact op_wop_ok|exact H2]).
  destruct (wsteps_WB _ _ _ Hw1 (w_setup_WB buf Hb)) as (HW1 & _).
  destruct (wsteps_WB _ _ _ Hw2 HW1) as (_ & Hmono).
  rewrite <- fold_left_app in Hmono. specialize (Hmono ltac:(lia)).
  destruct (writer_sim buf _ Hb H1 ltac:(lia)) as (_ & EL1 & _ & _).
  pose proof (RSim_init hw _ _ _ Hby Hlen eq_refl HL) as Hi.
  set (F := w_buf (flush_bits (fold_left wstep (ops1 ++ ops2) (w_setup buf)))) in *. clearbody F.
  rewrite (fold_left_app astep ops1 ops2) in HF, EL.
  pose proof (asteps_ok _ _ H1 a_init_ok) as Ha1.
  pose proof (asteps_ok _ _ H2 Ha1) as Ha2.
  pose proof (Fin_steps _ _ _ _ H2 Ha1 HF) as HF1.
  destruct (R1 _ _ _ _ a_init_ok Hi HF1) as (r1 & E1 & S1).
  assert (Hleft : r_bits_left r1 = w_bits_left (fold_left wstep ops1 (w_setup buf))).
  { rewrite EL1 in *. apply (RSim_left _ _ _ _ S1).
    assert (Hl : 0 <= a_left (zlen buf) (fold_left astep ops1 a_init)) by lia. unfold a_left in Hl.
    pose proof (range_bits_bounds _ (proj1 Ha1)) as Hrb.
    pose proof (asteps_pos ops1 a_init) as Hpos. change (a_pos a_init) with 0 in Hpos. lia. }
  destruct (R2 _ _ _ _ Ha1 S1 HF) as (r2 & E2 & S2).
  exists r1, r2. split; [exact E1|]. split; [exact Hleft|]. split; [rewrite Hleft; exact E2|].
  split; [destruct (rs_ra _ _ _ _ S2); unfold clean; auto|].
  split; [exact (rs_err _ _ _ _ S2)|].
  pose proof (RSim_left_ge _ _ _ _ S2) as Hge. rewrite <- EL in Hge. split; lia.
Qed.
