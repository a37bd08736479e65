(** * Properties C08 - C13: bitstream writer and reader
    Operations of a writer are [PutBits v n] (lc3_put_bits) and [PutSym m s]
    (lc3_put_symbol with the probability model [m]); operations of a reader are
    [GetBits n] and [GetSym m]. The models [m] are arbitrary. *)
From Coq Require Import ZArith List Bool Lia.
From Verif Require Import Base BitsModel BitsWriteSafe BitsAbstract BitsReadSim BitsReadSafe.
From Verif Require Import BitsRoundTrip Tables TableProofs.
Import ListNotations.
Local Open Scope Z_scope.

(** C08, C12: whatever the bytes and the sequence of reads, no byte outside of
    the frame is read, the renormalisation loop ends, the symbols returned have
    a non-empty interval and the coder stays in its legal interval.
    [hw] is the value the machine gives to an undefined shift. *)
Theorem C08_C12_reader_in_frame hw buf ops :
  bytes buf -> Forall rop_ok ops ->
  let '(vs, r) := rdos (r_setup hw buf) ops in
  r_oob r = false /\ r_stuck r = false /\ Forall2 rval_ok ops vs /\
  65536 <= r_range r < 2 ^ 24 /\ 0 <= r_low r < 2 ^ 24.
Proof. exact (read_safe hw buf ops). Qed.
Print Assumptions C08_C12_reader_in_frame.

(** C09: everything written, beyond the capacity or not, is in the buffer. *)
Theorem C09_writer_in_frame ops buf :
  bytes buf -> Forall wop_ok ops ->
  let w := flush_bits (fold_left wstep ops (w_setup buf)) in
  w_oob w = false /\ w_ub w = false /\ w_stuck w = false /\
  zlen (w_buf w) = zlen buf /\ bytes (w_buf w).
Proof. exact (writer_in_frame ops buf). Qed.
Print Assumptions C09_writer_in_frame.

(** C10: the finished frame gives back the values written, and the reader
    reports no error. *)
Theorem C10_entropy_round_trip hw buf ops :
  bytes buf -> Forall op_ok ops ->
  w_check (fold_left wstep ops (w_setup buf)) = 0 ->
  exists r, rsteps (r_setup hw (frame_of buf ops)) ops = (map op_value ops, r) /\
    r_check r = 0 /\ r_oob r = false /\ r_ub r = false /\ r_stuck r = false.
Proof.
  intros Hb Ho Hc. destruct (entropy_round_trip hw buf ops Hb Ho Hc)
    as (r & E & H1 & H2 & H3 & H4 & _). exists r. auto.
Qed.
Print Assumptions C10_entropy_round_trip.

(** C11: same number of bits left at corresponding points, as soon as 22 plain
    bits are passed. *)
Theorem C11_bits_left_partial hw buf ops1 ops2 :
  bytes buf -> Forall op_ok (ops1 ++ ops2) ->
  w_check (fold_left wstep (ops1 ++ ops2) (w_setup buf)) = 0 ->
  22 <= wops_bits ops1 ->
  r_bits_left (snd (rsteps (r_setup hw (frame_of buf (ops1 ++ ops2))) ops1)) =
  w_bits_left (fold_left wstep ops1 (w_setup buf)).
Proof. exact (bits_left_agree hw buf ops1 ops2). Qed.
Print Assumptions C11_bits_left_partial.

(** C11 does not hold without the plain bits: the position of the reader in the
    arithmetic code stops at the end of the frame. *)
Definition ex_m : model := nth 5 spectrum_models [].
Theorem C11_bits_left_refuted : exists buf ops,
  bytes buf /\ Forall op_ok ops /\
  w_check (fold_left wstep ops (w_setup buf)) = 0 /\
  r_bits_left (snd (rsteps (r_setup (fun v => v) (frame_of buf ops)) ops)) <>
  w_bits_left (fold_left wstep ops (w_setup buf)).
Proof.
  exists [0; 0; 0; 0], [PutSym ex_m 3; PutSym ex_m 7; PutSym ex_m 12; PutSym ex_m 15].
  split; [repeat constructor; lia|]. split.
  - assert (Hw : wf_model ex_m) by (apply chk_model_wf; vm_compute; reflexivity).
    repeat (apply Forall_cons; [cbn [op_ok]; unfold ok_sym;
      split; [exact Hw|vm_compute; intuition congruence]|]). apply Forall_nil.
  - split; vm_compute; [reflexivity|discriminate].
Qed.
Print Assumptions C11_bits_left_refuted.

(** C13: no undefined shift when the plain bits requested are in the frame, by
    31 at most at a time. *)
Theorem C13_no_undefined_shift_partial hw buf ops :
  bytes buf -> 1 <= zlen buf -> Forall (fun o => rop_ok o /\ rop_bits o <= 31) ops ->
  rops_bits ops <= 8 * zlen buf ->
  r_ub (snd (rdos (r_setup hw buf) ops)) = false.
Proof. exact (read_no_ub hw buf ops). Qed.
Print Assumptions C13_no_undefined_shift_partial.

(** Beyond the frame, bits read one by one lead to a shift by 32. *)
Theorem C13_shift_past_end_refuted : exists buf ops,
  bytes buf /\ zlen buf = 20 /\ Forall rop_ok ops /\
  r_ub (snd (rdos (r_setup (fun v => v) buf) ops)) = true.
Proof.
  exists (repeat 0 20), (repeat (GetBits 1) 193).
  split; [repeat constructor; lia|]. split; [reflexivity|]. split.
  - apply Forall_forall. intros x Hx. apply repeat_spec in Hx. subst x. cbn [rop_ok]. lia.
  - vm_compute. reflexivity.
Qed.
Print Assumptions C13_shift_past_end_refuted.

(** A first read of 32 bits, in the documented range, shifts by 32 as well. *)
Theorem C13_shift_32_bits_refuted : exists buf,
  bytes buf /\ zlen buf = 20 /\
  r_ub (snd (rdos (r_setup (fun v => v) buf) [GetBits 32])) = true.
Proof.
  exists (repeat 0 20). split; [repeat constructor; lia|].
  split; vm_compute; reflexivity.
Qed.
Print Assumptions C13_shift_32_bits_refuted.

(** A frame with symbols of several models and plain bits meets the hypotheses. *)
Definition ex_ops : list wop :=
  [PutBits 5 3; PutSym (nth 0 tns_order_models []) 7; PutBits 123456 20;
   PutSym (nth 3 tns_coeffs_models []) 16; PutSym ex_m 16; PutBits 1 1; PutSym ex_m 0].
Example ex_ops_ok : Forall op_ok ex_ops /\ Forall wop_ok ex_ops.
Proof.
  assert (W1 : wf_model (nth 0 tns_order_models [])) by (apply chk_model_wf; vm_compute; reflexivity).
  assert (W2 : wf_model (nth 3 tns_coeffs_models [])) by (apply chk_model_wf; vm_compute; reflexivity).
  assert (W3 : wf_model ex_m) by (apply chk_model_wf; vm_compute; reflexivity).
  split; repeat (apply Forall_cons; [cbn [op_ok wop_ok]; unfold ok_sym;
    try (split; [assumption|]); vm_compute; intuition congruence|]); apply Forall_nil.
Qed.
Example ex_frame :
  w_check (fold_left wstep ex_ops (w_setup (repeat 255 12))) = 0 /\
  22 <= wops_bits (firstn 3 ex_ops) /\
  fst (rsteps (r_setup (fun v => v) (frame_of (repeat 255 12) ex_ops)) ex_ops) =
    [5; 7; 123456; 16; 16; 1; 0].
Proof. vm_compute. intuition congruence. Qed.
Example ex_reads :
  Forall (fun o => rop_ok o /\ rop_bits o <= 31) [GetBits 3; GetSym ex_m; GetBits 25; GetSym ex_m] /\
  rops_bits [GetBits 3; GetSym ex_m; GetBits 25; GetSym ex_m] = 28.
Proof.
  assert (W3 : wf_model ex_m) by (apply chk_model_wf; vm_compute; reflexivity).
  split; [|reflexivity]. repeat (apply Forall_cons; [cbn; split; [assumption || lia|lia]|]); apply Forall_nil.
Qed.
