(** * C33, C34, C38, C39: frame blocks of several channels, files of the tools *)
From Coq Require Import ZArith List Bool Lia ZifyBool.
From Verif Require Import Base BaseProofs ConfigModel ConfigSpec ConfigProofs BlockModel BlockProofs BinModel BinProofs.
Import ListNotations.
Local Open Scope Z_scope.

(** ** C33 *)

(** Parts (offset, size) that follow each other from [off] to [stop]. *)
Fixpoint contiguous (off : Z) (ss : list (Z * Z)) (stop : Z) : Prop :=
  match ss with
  | [] => off = stop
  | (o, s) :: ss => o = off /\ 0 <= s /\ contiguous (off + s) ss stop
  end.

Lemma slots_contiguous b n : 0 <= b -> 0 < n -> forall k i, 0 <= i -> i + Z.of_nat k = n ->
  contiguous (offset b n i) (slots_from (frame_size b n) k i (offset b n i)) b.
Proof.
  intros Hb Hn. induction k as [|k IH]; intros i Hi Hk; cbn [slots_from contiguous].
  - replace i with n by lia. apply offset_n; assumption.
  - split; [reflexivity|]. split; [apply frame_size_bounds; assumption|]. rewrite <- offset_next by exact Hi. apply IH; lia.
Qed.

(** C33: the frames follow each other and fill the block, with a size that differs by one
    byte at most, for any count of channels. *)
Theorem C33_split b n : 0 <= b -> 0 < n ->
  length (slots b n) = Z.to_nat n /\ contiguous 0 (slots b n) b /\
  (forall s s', In s (slots b n) -> In s' (slots b n) -> snd s <= snd s' + 1).
Proof.
  intros Hb Hn. split; [|split].
  - rewrite slots_map by assumption. rewrite map_length. apply seq_length.
  - pose proof (slots_contiguous b n Hb Hn (Z.to_nat n) 0 ltac:(lia) ltac:(lia)) as H. rewrite offset_0 in H by assumption. exact H.
  - rewrite slots_map by assumption. intros s s' H H'. apply in_map_iff in H, H'.
    destruct H as (j & <- & _). destruct H' as (j' & <- & _). cbn [snd].
    pose proof (frame_size_bounds b n (Z.of_nat j) Hb Hn). pose proof (frame_size_bounds b n (Z.of_nat j') Hb Hn). lia.
Qed.
Print Assumptions C33_split.
Example C33_split_example : slots 100 3 = [(0, 34); (34, 33); (67, 33)].
Proof. reflexivity. Qed.

(** C33: the C++ wrapper, which computes with [size_t], makes the same split. *)
Theorem C33_cpp_split b n : 0 <= b <= INT_MAX -> 0 < n < 2 ^ 31 -> cpp_slots b n = slots b n.
Proof.
  intros Hb Hn. unfold cpp_slots, slots.
  assert (G : forall k i off, 0 <= i -> slots_from (cpp_frame_size b n) k i off = slots_from (frame_size b n) k i off).
  { induction k as [|k IH]; intros i off Hi; [reflexivity|]. cbn [slots_from]. rewrite cpp_frame_size_eq by lia. rewrite IH by lia. reflexivity. }
  apply G. lia.
Qed.
Print Assumptions C33_cpp_split.
Example C33_cpp_split_example : cpp_slots 1251 2 = [(0, 626); (626, 625)].
Proof. reflexivity. Qed.

(** C33: each decoder is given the very bytes output by the encoder of its channel. *)
Theorem C33_round_trip enc b n out : 0 <= b -> 0 < n -> zlen out = b ->
  (forall i s, 0 <= s -> zlen (enc i s) = s) ->
  zlen (encode_block enc b n out) = b /\
  decode_block (encode_block enc b n out) n =
    map (fun j => enc (Z.of_nat j) (frame_size b n (Z.of_nat j))) (seq 0 (Z.to_nat n)).
Proof. intros Hb Hn Ho He. exact (block_round_trip enc b n out Hb Hn He Ho). Qed.
Print Assumptions C33_round_trip.
Example C33_round_trip_example :
  decode_block (encode_block (fun i s => repeat (i + 1) (Z.to_nat s)) 5 2 [0; 0; 0; 0; 0]) 2 = [[1; 1; 1]; [2; 2]].
Proof. reflexivity. Qed.

(** C33: for each entry of the C++ wrapper but one, the samples of the channels are inside
    of the interleaved buffer, and two samples have no byte in common. *)
Theorem C33_cpp_pcm_partial e n samples ich i : e <> Decode_int32 -> 0 <= ich < n -> 0 <= i < samples ->
  let at_ c k := sample_addr (entry_elt e) (entry_fmt e) n c k in
  let size := fmt_size (entry_fmt e) in
  0 <= at_ ich i /\ at_ ich i + size <= n * samples * size /\
  (forall ich' i', 0 <= ich' < n -> 0 <= i' < samples -> (ich, i) <> (ich', i') ->
     at_ ich i + size <= at_ ich' i' \/ at_ ich' i' + size <= at_ ich i).
Proof.
  intros He H Hi. cbv zeta. assert (E : entry_elt e = fmt_size (entry_fmt e)).
  { destruct e as [| | |f| | | |f]; try reflexivity; try (destruct f; reflexivity). contradiction He; reflexivity. }
  split; [apply sample_in with (samples := samples); assumption|].
  split; [apply sample_in; assumption|]. intros ich' i' H' _ Hne. apply sample_disjoint; assumption.
Qed.
Print Assumptions C33_cpp_pcm_partial.
Example C33_cpp_pcm_example : sample_addr (entry_elt Encode_int32) (entry_fmt Encode_int32) 2 1 3 = 4 * 7.
Proof. reflexivity. Qed.

(** C33, missing: the decoding to [int32_t] gives the 24 bits packed format, on pointers
    of 4 bytes elements: samples of two channels have bytes in common, and no sample but
    those of the index 0 is on an element of the buffer. *)
Theorem C33_decode_int32_refuted : exists n ich i ich' i',
  let at_ c k := sample_addr (entry_elt Decode_int32) (entry_fmt Decode_int32) n c k in
  0 <= ich < n /\ 0 <= ich' < n /\ (ich, i) <> (ich', i') /\
  at_ ich i < at_ ich' i' + 3 /\ at_ ich' i' < at_ ich i + 3 /\ at_ ich i mod 4 <> 0.
Proof. exists 2, 0, 1, 1, 0. vm_compute. repeat split; intros; discriminate. Qed.
Print Assumptions C33_decode_int32_refuted.

(** C33: the Python wrapper, given bytes of any length, gives parts of its buffer to the
    codec; they hold all the samples of the channel. *)
Theorem C33_python_pcm f len n samples ich : 0 <= len -> 0 < n -> 0 < samples -> 0 <= ich < n ->
  from_buffer_ok (py_bytes_size f len n samples) (py_part f n samples ich) = true /\
  (forall i, 0 <= i < samples ->
     0 <= fmt_size f * (n * i) /\ fmt_size f * (n * i) + fmt_size f <= snd (py_part f n samples ich)).
Proof.
  intros Hl Hn Hs Hi. assert (Hf : 0 < fmt_size f) by (destruct f; cbn; lia).
  unfold from_buffer_ok, py_part, py_bytes_size. cbn [fst snd]. split.
  - assert (Hns : ich <= n * samples) by nia. assert (0 <= ich * fmt_size f) by nia. assert (0 <= (n * samples - ich) * fmt_size f) by nia.
    assert (ich * fmt_size f + (n * samples - ich) * fmt_size f = n * samples * fmt_size f) by ring.
    revert H H0 H1. generalize (ich * fmt_size f) ((n * samples - ich) * fmt_size f) (n * samples * fmt_size f). intros a b c; lia.
  - intros i H. assert (n * i + 1 <= n * samples - ich) by nia. nia.
Qed.
Print Assumptions C33_python_pcm.
Example C33_python_pcm_example : from_buffer_ok (py_bytes_size S16 100 2 480) (py_part S16 2 480 1) = true.
Proof. reflexivity. Qed.

(** C33: floating point values are accepted only from [samples] values, as
    the padding does not consider the values given. The documentation promises zeros. *)
Theorem C33_python_float_partial len n samples ich : 0 <= len -> 0 < n -> 0 < samples -> 0 <= ich < n ->
  from_buffer_ok (py_float_size len n samples) (py_part F32 n samples ich) = (samples <=? len).
Proof.
  intros Hl Hn Hs Hi. unfold from_buffer_ok, py_part, py_float_size. cbn [fst snd fmt_size].
  assert (Hns : ich <= n * samples) by nia. assert (0 <= n * samples - samples) by nia. assert (0 <= (n * samples - ich) * 4) by nia.
  assert (ich * 4 + (n * samples - ich) * 4 = 4 * (n * samples)) by ring. lia.
Qed.
Print Assumptions C33_python_float_partial.
Theorem C33_python_float_refuted : exists len n samples,
  0 <= len < n * samples /\ 0 < samples /\ from_buffer_ok (py_float_size len n samples) (py_part F32 n samples 0) = false.
Proof. exists 100, 1, 480. vm_compute. repeat split; intros; discriminate. Qed.
Print Assumptions C33_python_float_refuted.

(** ** C34 *)

(** C34: the header of a stream is read back, and the reading goes on after it. *)
Theorem C34_header p bitrate rest :
  (exists k, b_frame_us p = 10 * k /\ 0 <= k < 2 ^ 16) -> (exists k, b_srate_hz p = 100 * k /\ 0 <= k < 2 ^ 16) ->
  0 <= b_nchannels p < 2 ^ 16 -> 0 <= b_nsamples p < 2 ^ 31 ->
  let f := bin_write_header p bitrate ++ rest in
  bin_read_header (fopen f) = (Some (p, false), mkFile f (zlen (bin_write_header p bitrate))).
Proof. exact (header_read p bitrate rest). Qed.
Print Assumptions C34_header.
Example C34_header_example :
  let p := mkBin 7500 96000 true 2 1234567 in
  fst (bin_read_header (fopen (bin_write_header p 128000 ++ [1; 2; 3]))) = Some (p, false).
Proof. reflexivity. Qed.

(** C34: a whole stream: the blocks are read back, then comes the end. *)
Theorem C34_blocks p bitrate ds :
  (exists k, b_frame_us p = 10 * k /\ 0 <= k < 2 ^ 16) -> (exists k, b_srate_hz p = 100 * k /\ 0 <= k < 2 ^ 16) ->
  0 <= b_nchannels p < 2 ^ 16 -> 0 <= b_nsamples p < 2 ^ 31 ->
  Forall (fun d => 1 <= zlen d <= b_nchannels p * 625 /\ zlen d < 2 ^ 16) ds ->
  let '(h, f) := bin_read_header (fopen (bin_write_header p bitrate ++ flat_map bin_write_data ds)) in
  h = Some (p, false) /\
  read_blocks (length ds) f (b_nchannels p) = map Some ds /\
  fst (bin_read_data (mkFile (f_data f) (zlen (f_data f))) (b_nchannels p)) = None.
Proof.
  intros H1 H2 H3 H4 Hd. pose proof (header_read p bitrate (flat_map bin_write_data ds) H1 H2 H3 H4) as E. cbv zeta in E. rewrite E.
  split; [reflexivity|]. apply blocks_read. exact Hd.
Qed.
Print Assumptions C34_blocks.
Example C34_blocks_example :
  let '(_, f) := bin_read_header (fopen (bin_write_header (mkBin 10000 48000 false 1 10) 64000 ++ flat_map bin_write_data [[1; 2]; [3]])) in
  read_blocks 3 f 1 = [Some [1; 2]; Some [3]; None].
Proof. reflexivity. Qed.

(** C34: the blocks that the encoder makes are read by the decoder: for any accepted
    configuration and bitrate, up to 8 channels (the tools use 2). *)
Theorem C34_block_accepted hr dt_us sr_hz nch bitrate :
  supported hr dt_us sr_hz -> 1 <= nch <= 8 -> 0 <= bitrate ->
  exists n, hr_frame_block_bytes hr dt_us sr_hz nch bitrate = Some n /\ 1 <= n <= nch * 625 /\ n < 2 ^ 16.
Proof.
  intros Hs Hn Hb. eexists. split; [apply (block_bytes_ok hr dt_us sr_hz nch bitrate Hs Hn Hb)|].
  assert (L : 1 <= min_size hr dt_us sr_hz <= max_size hr dt_us sr_hz /\ max_size hr dt_us sr_hz <= 625).
  { clear - Hs. supported_case Hs; vm_compute; repeat split; intros; discriminate. }
  unfold clip. generalize dependent (Z.min bitrate 5376000 * (dt_us / 2500) / 3200). intros z.
  assert (nch * min_size hr dt_us sr_hz <= nch * max_size hr dt_us sr_hz <= nch * 625) by nia. nia.
Qed.
Print Assumptions C34_block_accepted.

(** C34: for any file, the data read are inside of the buffer of the tools. *)
Theorem C34_block_in_buffer f nch d f' : bytes (f_data f) -> 0 <= f_pos f ->
  bin_read_data f nch = (Some d, f') -> 1 <= zlen d <= nch * 625.
Proof. exact (data_bounded f nch d f'). Qed.
Print Assumptions C34_block_in_buffer.
Example C34_block_in_buffer_example : bin_read_data (fopen [2; 0; 7; 8; 9]) 1 = (Some [7; 8], mkFile [2; 0; 7; 8; 9] 4).
Proof. reflexivity. Qed.

(** C34, missing: from 2^31 samples, the reading of the count is undefined. *)
Theorem C34_header_refuted : exists p bitrate,
  0 <= b_nsamples p < 2 ^ 32 /\ fst (bin_read_header (fopen (bin_write_header p bitrate))) = Some (p, true).
Proof. exists (mkBin 10000 48000 false 1 (2 ^ 31)), 64000. split; [split; [discriminate|reflexivity]|reflexivity]. Qed.
Print Assumptions C34_header_refuted.

(** ** C38 *)

(** C38: the WAVE files are read, in the basic and the extended format, with any chunks
    before the data. *)
Theorem C38_wave size tag p ext others rest : tag = 1 \/ tag = 0xfffe -> zlen ext = 0 \/ zlen ext = 24 ->
  1 <= v_nchannels p -> 1 <= v_samplesize p -> v_nchannels p * v_samplesize p < 2 ^ 16 -> 0 <= v_bitdepth p < 2 ^ 16 ->
  1 <= v_samplerate p < 2 ^ 31 -> 0 <= v_nframes p < 2 ^ 31 -> v_nchannels p * v_nframes p * v_samplesize p < 2 ^ 32 ->
  Forall other_ok others ->
  let h := wave_header size tag p ext others in
  wave_read_header (fopen (h ++ rest)) = (Some p, mkFile (h ++ rest) (zlen h)).
Proof. exact (wave_read size tag p ext others rest). Qed.
Print Assumptions C38_wave.
Example C38_wave_example :
  let h := wave_header 0 0xfffe (mkWave 24 4 48000 2 1000) (repeat 0 24) [(5, [1; 2]); (6, [])] in
  fst (wave_read_header (fopen (h ++ [7]))) = Some (mkWave 24 4 48000 2 1000).
Proof. vm_compute. reflexivity. Qed.

(** C38: the header written by the decoder is of this form, hence is read back. *)
Theorem C38_wave_round_trip p rest : 1 <= v_nchannels p -> 1 <= v_samplesize p ->
  v_nchannels p * v_samplesize p < 2 ^ 16 -> 0 <= v_bitdepth p < 2 ^ 16 ->
  1 <= v_samplerate p < 2 ^ 31 -> 0 <= v_nframes p -> v_nchannels p * v_nframes p * v_samplesize p < 2 ^ 31 ->
  let f := wave_write_header p ++ rest in
  wave_read_header (fopen f) = (Some p, mkFile f 44).
Proof.
  intros H1 H2 H3 H4 H5 H6 H7. exact (wave_read _ 1 p [] [] rest (or_introl eq_refl) (or_introl eq_refl) H1 H2 H3 H4 H5 ltac:(nia) ltac:(lia) (Forall_nil _)).
Qed.
Print Assumptions C38_wave_round_trip.
Example C38_wave_round_trip_example :
  fst (wave_read_header (fopen (wave_write_header (mkWave 16 2 44100 2 5) ++ [7]))) = Some (mkWave 16 2 44100 2 5).
Proof. vm_compute. reflexivity. Qed.

(** C38, missing: the format of 18 bytes, the other one in use, is refused: the
    displacement to the end of the chunk has the wrong sign. *)
Theorem C38_wave_refuted : exists p ext rest, zlen ext = 2 /\
  fst (wave_read_header (fopen (wave_header 0 1 p ext [] ++ rest))) = None.
Proof. exists (mkWave 16 2 48000 1 10), [0; 0], (repeat 0 20). vm_compute. split; reflexivity. Qed.
Print Assumptions C38_wave_refuted.

(** ** C39 *)

(** C39: the decoder never lacks a block of the encoder: with the same or another sample
    rate on each side, its count of turns is not more than the one of the encoder. *)
Theorem C39_turns hr dt_us sr enc_sr nsamples fs d fs' d' :
  supported hr dt_us sr -> supported hr dt_us enc_sr -> 0 <= nsamples ->
  hr_frame_samples hr dt_us sr = Some fs -> hr_delay_samples hr dt_us sr = Some d ->
  hr_frame_samples hr dt_us enc_sr = Some fs' -> hr_delay_samples hr dt_us enc_sr = Some d' ->
  turns (resampled nsamples sr enc_sr + d') fs' <= turns (nsamples + d) fs.
Proof.
  intros S1 S2 Hn F1 D1 F2 D2.
  assert (G : 0 < sr /\ 0 < enc_sr /\ 0 < fs /\ 0 < fs' /\ 0 <= d /\ d' * sr = d * enc_sr /\ fs' * sr = fs * enc_sr).
  { pose proof (supported_pos _ _ _ S1). pose proof (supported_pos _ _ _ S2).
    destruct (frame_samples_ok _ _ _ S1) as [Ea Eb]. destruct (frame_samples_ok _ _ _ S2) as [Ec Ed].
    rewrite Ea in F1. rewrite Ec in F2. rewrite (delay_ok _ _ _ S1) in D1. rewrite (delay_ok _ _ _ S2) in D2.
    assert (Ha : forall us s, supported hr dt_us s -> us = (if dt_us =? 7500 then 4000 else 2500) -> samples us s * 1000000 = us * s).
    { intros us s Hs ->. clear - Hs. supported_case Hs; reflexivity. }
    pose proof (Ha _ _ S1 eq_refl) as A1. pose proof (Ha _ _ S2 eq_refl) as A2.
    assert (Hd : 0 < dt_us) by (pose proof (dt_us_pos _ _ _ S1); lia).
    assert (0 < (if dt_us =? 7500 then 4000 else 2500)) by (destruct (dt_us =? 7500); lia).
    inversion F1; inversion F2; inversion D1; inversion D2; subst. repeat split; nia. }
  destruct G as (G1 & G2 & G3 & G4 & G5 & G6 & G7). apply turns_resampled; assumption.
Qed.
Print Assumptions C39_turns.
Example C39_turns_example :
  hr_frame_samples false 7500 48000 = Some 360 /\ hr_delay_samples false 7500 48000 = Some 192 /\
  turns (1000 + 192) 360 = 4 /\ turns (resampled 1000 48000 16000 + 64) 120 = 4.
Proof. vm_compute. repeat split. Qed.

(** C39: the decoder writes the count of samples of its header, in parts inside of the
    frames, unless the stream with its delay is less than a frame. *)
Theorem C39_written_partial ps d fs : 0 <= ps -> 0 < d <= fs -> fs <= ps + d ->
  written ps d fs = ps /\
  (forall i, 0 <= i < turns (ps + d) fs ->
     let '(off, n) := write_part ps d fs i in 0 <= off /\ 0 <= n /\ off + n <= fs).
Proof.
  intros Hp Hd H. split; [|intros i Hi; apply write_part_in; lia].
  rewrite written_eq by lia. replace (fs <=? ps + d) with true by lia. reflexivity.
Qed.
Print Assumptions C39_written_partial.
Example C39_written_example : written 1000 120 480 = 1000 /\ turns (1000 + 120) 480 = 3.
Proof. vm_compute. split; reflexivity. Qed.

(** C39, missing: for a stream shorter than that, too many samples are always written. *)
Theorem C39_written_refuted ps d fs : 0 <= ps -> 0 < d <= fs -> ps + d < fs -> ps < written ps d fs.
Proof. intros Hp Hd H. rewrite written_eq by lia. replace (fs <=? ps + d) with false by lia. lia. Qed.
Print Assumptions C39_written_refuted.
Example C39_written_refuted_example : written 10 120 480 = 130.
Proof. vm_compute. reflexivity. Qed.
