(** * Properties C15 - C20: side data of a frame
    The round trips hold at any position: [pre] and [post] are arbitrary
    sequences of operations before and after the data, in the same frame. The
    validation theorems hold for any bytes, after any sequence [rops] of reads. *)
From Coq Require Import ZArith List Bool Lia.
From Verif Require Import Base BaseProofs BitsModel BitsWriteSafe BitsAbstract BitsReadSim.
From Verif Require Import BitsReadSafe BitsRoundTrip ConfigModel.
From Verif Require Import SideModel SideSpec SideProofs PvqModel PvqProofs SideFrame.
Import ListNotations.
Local Open Scope Z_scope.

(** C15 *)
Theorem C15_bandwidth_round_trip hw buf pre post sr bw :
  bytes buf -> Forall op_ok pre -> Forall op_ok post -> bw_ok sr bw ->
  let w := fold_left wstep post (put_bw (fold_left wstep pre (w_setup buf)) sr bw) in
  w_check w = 0 ->
  fst (get_bw (snd (rsteps (r_setup hw (w_buf (flush_bits w))) pre)) sr) = (0, bw).
Proof.
  intros Hb H1 H2 H w. unfold w. rewrite put_bw_ops. intros Hc.
  destruct (frame_reads hw buf pre _ post _ _ Hb H1 (bw_ops_ok sr bw H) H2
    (get_bw_reads sr bw H) Hc) as (r' & E & _). cbv beta in E. rewrite E. reflexivity.
Qed.
Print Assumptions C15_bandwidth_round_trip.

Theorem C15_bandwidth_validated hw buf rops sr :
  bytes buf -> Forall rop_ok rops -> 0 <= sr <= 6 ->
  let r := snd (rdos (r_setup hw buf) rops) in
  let '(ret, bw, r') := get_bw r sr in
  bw_ok sr bw /\ (ret = 0 \/ ret = -1) /\
  (0 < bw_nbits sr -> sr < fst (get_bits r (bw_nbits sr)) -> ret = -1) /\
  r_oob r' = false /\ r_stuck r' = false.
Proof.
  intros Hb Ho Hs r. pose proof (bytes_safe hw buf rops _ _ Hb Ho (get_bw_safe sr Hs)) as H.
  cbv beta in H. fold r in H.
  pose proof (get_bw_reject r sr) as Hrej.
  destruct (get_bw r sr) as [[ret bw] r']. cbn [fst] in Hrej.
  destruct H as ((H1 & H2) & H3 & H4).
  split; [exact H2|]. split; [exact H1|]. split; [|auto].
  intros P1 P2. specialize (Hrej P1 P2). congruence.
Qed.
Print Assumptions C15_bandwidth_validated.

(** 48 kHz, 3 bits: the code of 16 kHz; the code 6 is rejected. *)
Example C15_example :
  bw_ok 4 1 /\
  (let w := put_bw (w_setup (repeat 0 20)) 4 1 in
   w_check w = 0 /\
   fst (get_bw (r_setup (fun v => v) (w_buf (flush_bits w))) 4) = (0, 1)) /\
  fst (get_bw (r_setup (fun v => v) (repeat 0 19 ++ [6])) 4) = (-1, 4).
Proof. split; [split; [lia|cbn; lia]|]. vm_compute. auto. Qed.

(** C16 *)
Theorem C16_ltpf_round_trip hw buf pre post d :
  bytes buf -> Forall op_ok pre -> Forall op_ok post -> ltpf_ok d ->
  let w := fold_left wstep post (put_ltpf (fold_left wstep pre (w_setup buf)) d) in
  w_check w = 0 ->
  fst (get_ltpf (snd (rsteps (r_setup hw (w_buf (flush_bits w))) pre))) = d.
Proof.
  intros Hb H1 H2 H w. unfold w. rewrite put_ltpf_ops. intros Hc.
  destruct (frame_reads hw buf pre _ post _ _ Hb H1 (ltpf_ops_ok d H) H2
    (get_ltpf_reads d H) Hc) as (r' & E & _). rewrite E. reflexivity.
Qed.
Print Assumptions C16_ltpf_round_trip.

Theorem C16_ltpf_validated hw buf rops :
  bytes buf -> Forall rop_ok rops ->
  let '(d, r') := get_ltpf (snd (rdos (r_setup hw buf) rops)) in
  ltpf_ok d /\ r_oob r' = false /\ r_stuck r' = false.
Proof. intros Hb Ho. exact (bytes_safe hw buf rops _ _ Hb Ho get_ltpf_safe). Qed.
Print Assumptions C16_ltpf_validated.

Example C16_example :
  ltpf_ok (mkLtpf 1 511) /\
  let w := put_ltpf (w_setup (repeat 0 20)) (mkLtpf 1 511) in
  w_check w = 0 /\ fst (get_ltpf (r_setup (fun v => v) (w_buf (flush_bits w)))) = mkLtpf 1 511.
Proof. split; [split; cbn; lia|]. vm_compute. auto. Qed.

(** C17: with the codebook indexes read in the order they are written. *)
Theorem C17_sns_round_trip_partial hw buf pre post d :
  bytes buf -> Forall op_ok pre -> Forall op_ok post -> sns_ok d ->
  let w := fold_left wstep post (put_sns (fold_left wstep pre (w_setup buf)) d) in
  w_check w = 0 ->
  fst (get_sns true (snd (rsteps (r_setup hw (w_buf (flush_bits w))) pre))) = Some (sns_canon d).
Proof.
  intros Hb H1 H2 H w. unfold w.
  assert (Hs : 0 <= s_shape d < 4) by exact (proj1 (proj2 (proj2 H))).
  rewrite put_sns_ops by exact Hs. intros Hc.
  destruct (frame_reads hw buf pre _ post _ _ Hb H1 (sns_ops_ok d H) H2
    (get_sns_reads d H) Hc) as (r' & E & _). rewrite E. reflexivity.
Qed.
Print Assumptions C17_sns_round_trip_partial.

(** C17 missing part: the decoder reads both codebook indexes in one initialiser
    list, whose order of evaluation the C standard leaves to the compiler. With
    the other order the indexes are exchanged. *)
Definition ex_sns := mkSns 3 17 0 1 123456 1 4 0.
Theorem C17_evaluation_order_refuted : exists buf d,
  bytes buf /\ sns_ok d /\
  let w := put_sns (w_setup buf) d in
  w_check w = 0 /\
  fst (get_sns false (r_setup (fun v => v) (w_buf (flush_bits w)))) <> Some (sns_canon d).
Proof.
  exists (repeat 0 20), ex_sns. split; [repeat constructor; lia|].
  split; [unfold sns_ok; cbn; lia|]. vm_compute. split; [reflexivity|discriminate].
Qed.
Print Assumptions C17_evaluation_order_refuted.

Example C17_example :
  sns_ok ex_sns /\
  let w := put_sns (w_setup (repeat 0 20)) ex_sns in
  w_check w = 0 /\
  fst (get_sns true (r_setup (fun v => v) (w_buf (flush_bits w)))) = Some ex_sns.
Proof. split; [unfold sns_ok; cbn; lia|]. vm_compute. auto. Qed.

(** C18: any bits are rejected, or give indexes in the tables; the pulse vector
    is then defined. The order of evaluation has no influence here. *)
Theorem C18_sns_validated hw buf rops lf_first :
  bytes buf -> Forall rop_ok rops ->
  let '(o, r') := get_sns lf_first (snd (rdos (r_setup hw buf) rops)) in
  match o with
  | None => True
  | Some d => sns_ok d /\ exists c,
      deenumerate (s_shape d) (s_idx_a d) (s_ls_a d =? 1) (s_idx_b d) (s_ls_b d =? 1) = Some c /\
      config_ok (s_shape d) c
  end /\ r_oob r' = false /\ r_stuck r' = false.
Proof.
  intros Hb Ho. pose proof (bytes_safe hw buf rops _ _ Hb Ho (get_sns_safe lf_first)) as H.
  destruct (get_sns lf_first (snd (rdos (r_setup hw buf) rops))) as [o r'].
  destruct H as (H & Hr). split; [|exact Hr]. destruct o as [d|]; [|exact I].
  destruct H as (Hd & _). split; [exact Hd|]. exact (sns_vector d Hd).
Qed.
Print Assumptions C18_sns_validated.

(** All the bits set are rejected, no bit set is accepted. *)
Example C18_example :
  fst (get_sns true (r_setup (fun v => v) (repeat 255 20))) = None /\
  fst (get_sns true (r_setup (fun v => v) (repeat 0 20))) = Some (mkSns 0 0 1 0 0 0 0 0).
Proof. vm_compute. auto. Qed.

(** C19 *)
Theorem C19_enumerate_round_trip shape c :
  0 <= shape < 4 -> config_ok shape c ->
  exists ia la ob, enumerate shape c = Some ((ia, la), ob) /\ 0 <= ia < sns_size_a shape /\
    (if shape =? 0 then exists ib lb, ob = Some (ib, lb) /\ 0 <= ib < 6 /\
       deenumerate shape ia la ib lb = Some c
     else ob = None /\ forall ib lb, deenumerate shape ia la ib lb = Some c).
Proof. exact (enumerate_ok shape c). Qed.
Print Assumptions C19_enumerate_round_trip.

Theorem C19_deenumerate_round_trip shape ia la ib lb :
  0 <= shape < 4 -> 0 <= ia < sns_size_a shape -> (shape = 0 -> 0 <= ib < 6) ->
  exists c, deenumerate shape ia la ib lb = Some c /\ config_ok shape c /\
    enumerate shape c = Some ((ia, la), if shape =? 0 then Some (ib, lb) else None).
Proof. exact (deenumerate_ok shape ia la ib lb). Qed.
Print Assumptions C19_deenumerate_round_trip.

Example C19_example :
  let c := [3; 0; -2; 0; 0; 1; 0; 0; -4; 0; 0; 0; 0; -1; 0; 0] in
  config_ok 0 c /\
  exists ia ib, enumerate 0 c = Some ((ia, false), Some (ib, true)) /\
    deenumerate 0 ia false ib true = Some c /\ 0 < ia.
Proof.
  split; [vm_compute; auto|]. eexists _, _. split; [vm_compute; reflexivity|].
  split; vm_compute; reflexivity.
Qed.

(** C20 *)
Theorem C20_tns_round_trip hw buf pre post dt bw nbytes d :
  bytes buf -> Forall op_ok pre -> Forall op_ok post -> tns_ok dt bw nbytes d ->
  let w := fold_left wstep post (put_tns (fold_left wstep pre (w_setup buf)) d) in
  w_check w = 0 ->
  fst (get_tns (snd (rsteps (r_setup hw (w_buf (flush_bits w))) pre)) dt bw nbytes) = Some d.
Proof.
  intros Hb H1 H2 H w. unfold w. rewrite put_tns_ops. intros Hc.
  destruct (frame_reads hw buf pre _ post _ _ Hb H1 (tns_ops_ok _ _ _ d H) H2
    (get_tns_reads _ _ _ d H) Hc) as (r' & E & _). cbv beta in E. rewrite E. reflexivity.
Qed.
Print Assumptions C20_tns_round_trip.

Theorem C20_tns_validated hw buf rops dt bw nbytes :
  bytes buf -> Forall rop_ok rops ->
  let '(o, r') := get_tns (snd (rdos (r_setup hw buf) rops)) dt bw nbytes in
  match o with Some d => tns_ok dt bw nbytes d | None => True end /\
  r_oob r' = false /\ r_stuck r' = false.
Proof.
  intros Hb Ho. exact (bytes_safe hw buf rops _ _ Hb Ho (get_tns_safe dt bw nbytes)).
Qed.
Print Assumptions C20_tns_validated.

Example C20_example :
  let d := mkTns true [[-8; 3; 0; 8; -1; 0; 0; 2]; [1; -1]] in
  tns_ok 3 4 40 d /\
  let w := put_tns (w_setup (repeat 0 40)) d in
  w_check w = 0 /\
  fst (get_tns (r_setup (fun v => v) (w_buf (flush_bits w))) 3 4 40) = Some d.
Proof.
  split; [|vm_compute; auto].
  split; [reflexivity|]. split; [reflexivity|].
  repeat (apply Forall_cons; [split; [cbn; lia|repeat constructor; lia]|]). apply Forall_nil.
Qed.

(** Spectrum side data (part of C21): count of coefficients, LSB mode, gain. *)
Theorem C21_side_round_trip hw buf pre post dt sr d :
  bytes buf -> Forall op_ok pre -> Forall op_ok post -> side_ok dt sr d ->
  let w := fold_left wstep post (put_spec_side (fold_left wstep pre (w_setup buf)) dt sr d) in
  w_check w = 0 ->
  fst (get_spec_side (snd (rsteps (r_setup hw (w_buf (flush_bits w))) pre)) dt sr) = (0, d).
Proof.
  intros Hb H1 H2 H w. unfold w. rewrite put_side_ops. intros Hc.
  destruct (frame_reads hw buf pre _ post _ _ Hb H1 (side_ops_ok _ _ d H) H2
    (get_side_reads _ _ d H) Hc) as (r' & E & _). cbv beta in E. rewrite E. reflexivity.
Qed.
Print Assumptions C21_side_round_trip.

Theorem C25_side_validated hw buf rops dt sr :
  bytes buf -> Forall rop_ok rops -> 0 <= dt <= 3 -> 0 <= sr <= 6 ->
  let '(ret, d, r') := get_spec_side (snd (rdos (r_setup hw buf) rops)) dt sr in
  (ret = 0 \/ ret = -1) /\ side_ok dt sr d /\ r_oob r' = false /\ r_stuck r' = false.
Proof.
  intros Hb Ho Hd Hs.
  pose proof (bytes_safe hw buf rops _ _ Hb Ho (get_side_safe dt sr Hd Hs)) as H. cbv beta in H.
  destruct (get_spec_side (snd (rdos (r_setup hw buf) rops)) dt sr) as [[ret d] r'].
  destruct H as ((H1 & H2) & H3). auto.
Qed.
Print Assumptions C25_side_validated.

Example C21_side_example :
  let d := mkSide 398 true 255 in
  side_ok 3 4 d /\
  let w := put_spec_side (w_setup (repeat 0 40)) 3 4 d in
  w_check w = 0 /\
  fst (get_spec_side (r_setup (fun v => v) (w_buf (flush_bits w))) 3 4) = (0, d).
Proof. split; [unfold side_ok; cbn [q_nq q_gidx]; change (c_ne 3 4) with 400; repeat split; lia|].
  vm_compute. auto.
Qed.
