(** * Properties of whole frames (C24, C25 and the frame level of C13) *)
From Coq Require Import ZArith List Bool Lia ZifyBool.
From Verif Require Import Base BaseProofs BitsModel ConfigModel SideModel SideSpec SpecModel SpecSpec.
From Verif Require Import BitsRoundTrip FloatModel ResidualModel ResidualSpec BitsReadSafe SideProofs.
From Verif Require Import FrameModel FrameSpec FrameProofs FrameSafe.
Import ListNotations.
Local Open Scope Z_scope.

(** A frame written without overflow is accepted by the decoder, which recovers the
    side data exactly and the spectrum up to the quantization and the bits left.
    Missing: the two operands of src/sns.c line 881 shall be evaluated in order (see
    C17), and there is one pair of significant coefficients at least (see
    [C24_empty_spectrum_refuted]). *)
Theorem C24_frame_round_trip_partial hw buf dt sr f :
  bytes buf -> frame_ok dt sr (zlen buf) f ->
  w_check (put_frame (w_setup buf) dt sr (zlen buf) f) = 0 ->
  let n := w_get_bits_left (put_main (w_setup buf) dt sr (zlen buf) f) in
  zlen (encode buf dt sr f) = zlen buf /\ bytes (encode buf dt sr f) /\
  exists d, decode true hw (encode buf dt sr f) dt sr = Some d /\
    same_side f d /\
    same_spectrum (q_lsb (f_side f)) (is_hr sr) n (f_x f) (f_q sr f) (d_x d) (d_seed d).
Proof.
  intros Hb Hf Hc n. destruct (encode_in_frame buf dt sr _ f Hb Hf) as (_ & _ & _ & EL & EB).
  change (zlen (encode buf dt sr f) = zlen buf) in EL. change (bytes (encode buf dt sr f)) in EB.
  split; [exact EL|]. split; [exact EB|].
  destruct (frame_round_trip hw buf dt sr f Hb Hf Hc) as (d & r & E & _ & H1 & H2).
  exists d. unfold decode. rewrite EL, E. auto.
Qed.
Print Assumptions C24_frame_round_trip_partial.

(** Enough or not, the room of the frame is never exceeded by the writer. *)
Theorem C09_frame_in_buffer buf dt sr nbytes f : bytes buf -> frame_ok dt sr nbytes f ->
  let w := flush_bits (put_frame (w_setup buf) dt sr nbytes f) in
  w_oob w = false /\ w_ub w = false /\ w_stuck w = false /\
  zlen (w_buf w) = zlen buf /\ bytes (w_buf w).
Proof. exact (encode_in_frame buf dt sr nbytes f). Qed.
Print Assumptions C09_frame_in_buffer.

(** 60 bytes at 48 kHz, 10 ms with a pitch and residual bits; the same spectrum with
    the least significant bits apart in 150 bytes; 300 bytes in high resolution. *)
Definition ex_x : list Z := [7 * one / 2; - (5 * one); one / 4; - (9 * one / 8); 0; 71 * one].
Definition ex_frame (lsb : bool) : frame :=
  mkFrame 4 (mkSide 6 lsb 200) (mkTns false [[5; -3; 2]; []]) true (mkSns 3 17 0 1 12345 1 5 1)
    (mkLtpf 1 300) 5 ex_x.
Definition ex_frame_hr : frame :=
  mkFrame 6 (mkSide 6 false 77) (mkTns false [[1]; [-2; 8]]) false (mkSns 3 17 3 6 777 0 0 0)
    (mkLtpf 0 0) 2 ex_x.

Lemma ex_x_coded hr : Forall (coded_f32 hr) ex_x.
Proof.
  repeat (apply Forall_cons; [split; [vm_compute; reflexivity|destruct hr; vm_compute; reflexivity]|]).
  apply Forall_nil.
Qed.
Lemma ex_x_apart : Forall (fun x => Z.abs x <> one / 2 - one / 2 ^ 25) ex_x.
Proof.
  repeat (apply Forall_cons; [vm_compute; discriminate|]). apply Forall_nil.
Qed.

Lemma ex_filters_ok : Forall (filter_ok 3) [[5; -3; 2]; []] /\ Forall (filter_ok 3) [[1]; [-2; 8]].
Proof.
  split; (apply Forall_cons; [|apply Forall_cons; [|apply Forall_nil]]);
    (split; [vm_compute; discriminate|repeat constructor; lia]).
Qed.

Lemma ex_frame_ok lsb nbytes : 60 <= nbytes -> frame_ok 3 4 nbytes (ex_frame lsb).
Proof.
  intros Hn. unfold frame_ok, ex_frame. cbn [f_bw f_side f_tns f_sns f_pitch f_ltpf f_nf f_x q_nq].
  split; [unfold bw_ok; change (is_hr 4) with false; cbv iota; lia|].
  split; [unfold side_ok; cbn [q_nq q_gidx]; change (c_ne 3 4) with 400; repeat split; lia|].
  split; [split; [cbn [t_weighting]; lia|]; split; [reflexivity|exact (proj1 ex_filters_ok)]|].
  split; [unfold sns_ok; cbn; lia|]. split; [intros _; unfold ltpf_ok; cbn; lia|]. split; [lia|].
  split; [reflexivity|]. split; [apply ex_x_coded|]. intros _. exact ex_x_apart.
Qed.
Lemma ex_frame_hr_ok : frame_ok 3 6 300 ex_frame_hr.
Proof.
  unfold frame_ok, ex_frame_hr. cbn [f_bw f_side f_tns f_sns f_pitch f_ltpf f_nf f_x q_nq].
  split; [unfold bw_ok; change (is_hr 6) with true; cbv iota; lia|].
  split; [unfold side_ok; cbn [q_nq q_gidx]; change (c_ne 3 6) with 960; repeat split; lia|].
  split; [split; [cbn [t_weighting]; lia|]; split; [reflexivity|exact (proj2 ex_filters_ok)]|].
  split; [unfold sns_ok; repeat split; try (vm_compute; congruence); [left; reflexivity|discriminate..]|].
  split; [discriminate|]. split; [lia|].
  split; [reflexivity|]. split; [apply ex_x_coded|]. intros _. exact ex_x_apart.
Qed.

(** In sixteenths. *)
Definition ex_dec (n : nat) (sr : Z) (f : frame) : option (list Z) :=
  option_map (fun d => map (fun x => 16 * x / one) (d_x d))
    (decode true (fun v => v) (encode (repeat 0 n) 3 sr f) 3 sr).

Example C24_example :
  w_check (put_frame (w_setup (repeat 0 60)) 3 4 60 (ex_frame false)) = 0 /\
  ex_dec 60 4 (ex_frame false) = Some [53; -85; 0; -21; 0; 1141] /\
  w_check (put_frame (w_setup (repeat 0 150)) 3 4 150 (ex_frame true)) = 0 /\
  ex_dec 150 4 (ex_frame true) = Some [48; -80; 0; -16; 0; 1136] /\
  w_check (put_frame (w_setup (repeat 0 300)) 3 6 300 ex_frame_hr) = 0 /\
  ex_dec 300 6 ex_frame_hr = Some [56; -81; 0; -19; 0; 1136].
Proof. vm_compute. auto 10. Qed.

(** Any bytes are decoded without any access out of the frame or of the tables, and
    an accepted frame has valid data, with a spectrum that fits in the frame. *)
Theorem C25_decode_any_bytes hw lf_first data dt sr :
  bytes data -> 0 <= dt <= 3 -> 0 <= sr <= 6 ->
  let '(o, r) := get_frame lf_first (r_setup hw data) dt sr (zlen data) in
  r_oob r = false /\ r_stuck r = false /\
  match o with
  | None => True
  | Some d =>
      bw_ok sr (d_bw d) /\ side_ok dt sr (d_side d) /\ tns_ok dt (d_bw d) (zlen data) (d_tns d) /\
      sns_ok (d_sns d) /\ (forall l, d_ltpf d = Some l -> ltpf_ok l) /\ 0 <= d_nf d < 8 /\
      zlen (d_x d) = q_nq (d_side d) /\ q_nq (d_side d) <= c_ne dt sr
  end.
Proof.
  intros Hb Hd Hs.
  pose proof (get_frame_safe lf_first dt sr (zlen data) Hd Hs _ _ (r_setup_RB hw data Hb)) as H.
  destruct (get_frame lf_first (r_setup hw data) dt sr (zlen data)) as [o r].
  destruct H as (H1 & H2). destruct H2. split; [assumption|]. split; [assumption|].
  destruct o as [d|]; [|exact I]. destruct H1 as (D1 & D2 & D3 & D4 & D5 & D6 & D7 & D8).
  split; [exact D1|]. split; [exact D2|]. do 5 (split; [assumption|]). apply D2.
Qed.
Print Assumptions C25_decode_any_bytes.

(** Bytes that are accepted, bytes that are not. *)
Example C25_example :
  (exists d, decode true (fun v => v) (repeat 17 40) 3 4 = Some d /\ q_nq (d_side d) = 70) /\
  decode true (fun v => v) (repeat 255 40) 3 4 = None.
Proof. split; [eexists; split|]; vm_compute; reflexivity. Qed.

(** There is a frame of the minimal size for which the parser shifts a 32-bit word by
    32, reading after the end of the frame before its error check. *)
Theorem C13_frame_refuted : exists data,
  bytes data /\ zlen data = 20 /\
  r_ub (snd (get_frame true (r_setup (fun v => v) data) 3 0 20)) = true.
Proof.
  exists [255; 244; 7; 186; 168; 5; 87; 2; 217; 206; 169; 218; 148; 18; 59; 250; 0; 0; 0; 39].
  split; [repeat constructor; lia|]. split; [reflexivity|]. vm_compute. reflexivity.
Qed.
Print Assumptions C13_frame_refuted.

(** A spectrum without any significant coefficient ([nq = 0]) is coded as if there
    were 2, without the symbol of the pair: with temporal noise shaping the decoder
    reads as coefficients what remains of the arithmetic code. *)
Definition ex_empty : frame :=
  mkFrame 0 (mkSide 0 false 0) (mkTns true [[5; -3; 2]]) false (mkSns 0 0 0 0 0 0 0 0)
    (mkLtpf 0 0) 0 [].
Theorem C24_empty_spectrum_refuted :
  w_check (put_frame (w_setup (repeat 0 20)) 3 0 20 ex_empty) = 0 /\
  exists d, decode true (fun v => v) (encode (repeat 0 20) 3 0 ex_empty) 3 0 = Some d /\
    d_x d = [45 * one / 16; 13 * one / 16].
Proof. split; [vm_compute; reflexivity|]. eexists. split; vm_compute; reflexivity. Qed.
Print Assumptions C24_empty_spectrum_refuted.
