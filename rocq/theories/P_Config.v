(** * Properties C01 - C06: configuration, sizes, memory layout *)
From Coq Require Import ZArith List Bool Lia.
From Verif Require Import Base ConfigModel ConfigSpec ConfigProofs.
Local Open Scope Z_scope.

(** [Some z] is a call without undefined behaviour that returns [z]. *)

(** C01: the sample count is the exact product for supported configurations. *)
Theorem C01_frame_samples hr dt_us sr_hz :
  (supported hr dt_us sr_hz ->
     hr_frame_samples hr dt_us sr_hz = Some (samples dt_us sr_hz) /\
     samples dt_us sr_hz * 1000000 = dt_us * sr_hz) /\
  (~ supported hr dt_us sr_hz -> hr_frame_samples hr dt_us sr_hz = Some (-1)).
Proof. exact (conj (frame_samples_ok hr dt_us sr_hz) (frame_samples_err hr dt_us sr_hz)). Qed.
Print Assumptions C01_frame_samples.
Example C01_example :
  supported false 7500 24000 /\ hr_frame_samples false 7500 24000 = Some 180 /\
  ~ supported true 7500 48000.
Proof. unfold supported, supported_dt, supported_sr. cbn. intuition (try lia; discriminate). Qed.

(** C02: size -> bitrate -> size is the identity on all the accepted sizes and
    the bitrate is the least one that gives that size. *)
Theorem C02_bytes_bitrate_bytes hr dt_us sr_hz n :
  supported hr dt_us sr_hz ->
  min_size hr dt_us sr_hz <= n <= max_size hr dt_us sr_hz ->
  exists b, hr_resolve_bitrate hr dt_us sr_hz n = Some b /\ 0 < b /\
    hr_frame_bytes hr dt_us sr_hz b = Some n /\
    (forall b', 0 <= b' < b -> min_size hr dt_us sr_hz < n ->
       exists n', hr_frame_bytes hr dt_us sr_hz b' = Some n' /\ n' < n).
Proof. exact (bytes_bitrate_bytes hr dt_us sr_hz n). Qed.
Print Assumptions C02_bytes_bitrate_bytes.

(** C02, other direction: the bitrate computed from the size chosen for a
    bitrate does not exceed that bitrate, unless the minimum was enforced. *)
Theorem C02_bitrate_bytes_bitrate hr dt_us sr_hz bitrate n :
  supported hr dt_us sr_hz -> 0 <= bitrate <= INT_MAX ->
  hr_frame_bytes hr dt_us sr_hz bitrate = Some n ->
  exists b, hr_resolve_bitrate hr dt_us sr_hz n = Some b /\
    (b <= bitrate \/ n = min_size hr dt_us sr_hz).
Proof. exact (bitrate_bytes_bitrate hr dt_us sr_hz bitrate n). Qed.
Print Assumptions C02_bitrate_bytes_bitrate.
Example C02_example :
  supported false 7500 48000 /\
  hr_resolve_bitrate false 7500 48000 100 = Some 106667 /\
  hr_frame_bytes false 7500 48000 106667 = Some 100.
Proof. unfold supported, supported_dt, supported_sr. cbn. intuition. Qed.

(** C03: value of the block size for all valid arguments, for all the
    configurations but one (see the refutation below). *)
Theorem C03_block_bytes_partial hr dt_us sr_hz nch bitrate :
  supported hr dt_us sr_hz -> 1 <= nch <= 8 -> 0 <= bitrate ->
  ~ (hr = false /\ dt_us = 2500 /\ 4 < nch) ->
  exists n, hr_frame_block_bytes hr dt_us sr_hz nch bitrate = Some n /\
    nch * min_size hr dt_us sr_hz <= n <= nch * max_size hr dt_us sr_hz /\
    (bitrate = 0 -> n = nch * min_size hr dt_us sr_hz) /\
    (bitrate = INT_MAX -> n = nch * max_size hr dt_us sr_hz) /\
    (nch * min_size hr dt_us sr_hz < n < nch * max_size hr dt_us sr_hz ->
       n = bitrate * dt_us / 8000000) /\
    (nch * min_size hr dt_us sr_hz = n -> bitrate * dt_us / 8000000 <= n) /\
    (nch * max_size hr dt_us sr_hz = n -> bitrate * dt_us / 8000000 >= n).
Proof. exact (block_bytes_spec hr dt_us sr_hz nch bitrate). Qed.
Print Assumptions C03_block_bytes_partial.

(** C03, every valid configuration: no overflow, inside of the limits. *)
Theorem C03_block_bytes_bounds hr dt_us sr_hz nch bitrate :
  supported hr dt_us sr_hz -> 1 <= nch <= 8 -> 0 <= bitrate ->
  hr_frame_block_bytes hr dt_us sr_hz nch bitrate =
    Some (clip (Z.min bitrate 5376000 * (dt_us / 2500) / 3200)
            (nch * min_size hr dt_us sr_hz) (nch * max_size hr dt_us sr_hz)).
Proof. exact (block_bytes_ok hr dt_us sr_hz nch bitrate). Qed.
Print Assumptions C03_block_bytes_bounds.

Theorem C03_block_bytes_monotone hr dt_us sr_hz nch b1 b2 n1 n2 :
  supported hr dt_us sr_hz -> 1 <= nch <= 8 -> 0 <= b1 <= b2 ->
  hr_frame_block_bytes hr dt_us sr_hz nch b1 = Some n1 ->
  hr_frame_block_bytes hr dt_us sr_hz nch b2 = Some n2 -> n1 <= n2.
Proof. exact (block_bytes_mono hr dt_us sr_hz nch b1 b2 n1 n2). Qed.
Print Assumptions C03_block_bytes_monotone.

Theorem C03_block_bytes_error hr dt_us sr_hz nch bitrate :
  ~ (supported hr dt_us sr_hz /\ 1 <= nch <= 8 /\ 0 <= bitrate) ->
  hr_frame_block_bytes hr dt_us sr_hz nch bitrate = Some (-1).
Proof. exact (block_bytes_err hr dt_us sr_hz nch bitrate). Qed.
Print Assumptions C03_block_bytes_error.

Theorem C03_resolve_bitrate hr dt_us sr_hz nbytes :
  INT_MIN <= nbytes <= INT_MAX ->
  exists b, hr_resolve_bitrate hr dt_us sr_hz nbytes = Some b /\
    (supported hr dt_us sr_hz /\ 0 <= nbytes ->
       b = Z.min ((nbytes * 3200 + (dt_us / 2500 - 1)) / (dt_us / 2500)) INT_MAX) /\
    (~ supported hr dt_us sr_hz \/ nbytes < 0 -> b = -1).
Proof. exact (resolve_bitrate_total hr dt_us sr_hz nbytes). Qed.
Print Assumptions C03_resolve_bitrate.

(** C03 is false as documented for 2.5 ms blocks of 5 channels and more:
    INT_MAX should give the maximum size, 400 bytes per channel. The clip of the
    bitrate to 8 * 672000 limits the block to 1680 bytes. *)
Theorem C03_block_bytes_max_refuted :
  exists nch, 1 <= nch <= 8 /\ supported false 2500 48000 /\
    hr_frame_block_bytes false 2500 48000 nch INT_MAX = Some 1680 /\
    1680 < nch * max_size false 2500 48000.
Proof. exact block_bytes_max_refuted. Qed.
Print Assumptions C03_block_bytes_max_refuted.
Example C03_example :
  supported true 5000 96000 /\
  hr_frame_block_bytes true 5000 96000 2 400000 = Some 250 /\
  hr_frame_block_bytes true 5000 96000 2 0 = Some 108 /\
  hr_frame_block_bytes true 5000 96000 2 INT_MAX = Some 750.
Proof. unfold supported, supported_dt, supported_sr. cbn. intuition. Qed.

(** C04: delay of 2.5 ms, 4 ms for the 7.5 ms frames. *)
Theorem C04_delay hr dt_us sr_hz :
  (supported hr dt_us sr_hz ->
     hr_delay_samples hr dt_us sr_hz =
       Some (samples (if dt_us =? 7500 then 4000 else 2500) sr_hz)) /\
  (~ supported hr dt_us sr_hz -> hr_delay_samples hr dt_us sr_hz = Some (-1)).
Proof. exact (conj (delay_ok hr dt_us sr_hz) (delay_err hr dt_us sr_hz)). Qed.
Print Assumptions C04_delay.
Example C04_example :
  hr_delay_samples false 7500 48000 = Some 192 /\
  hr_delay_samples true 10000 96000 = Some 240.
Proof. split; reflexivity. Qed.

(** C05: layout of the encoder, in bytes from the start of the float buffer:
    [2*e_xt - 2*nt, ...) 16-bit history and input samples, then [e_xs] the
    frame of floats, [e_xd] the delayed samples. Nothing overlaps, everything
    is inside of the [count] elements allocated by the announced size. *)
Theorem C05_encoder_memory hr dt_us sr_hz sr_pcm_hz srp :
  srp = (if sr_pcm_hz <=? 0 then sr_hz else sr_pcm_hz) ->
  supported hr dt_us sr_hz -> supported hr dt_us srp -> sr_hz <= srp ->
  exists c count,
    hr_setup_encoder hr dt_us sr_hz sr_pcm_hz = Some (Some (c, count)) /\
    (forall s, hr_encoder_size s hr dt_us srp = Some (s + 4 * (count - 1))) /\
    0 <= 2 * e_xt c - 2 * samples 1250 srp /\
    2 * (e_xt c + samples dt_us srp) <= 4 * e_xs c /\
    4 * (e_xs c + samples dt_us srp) <= 4 * e_xd c /\
    4 * (e_xd c + samples dt_us srp / 2 +
         samples (if dt_us =? 7500 then 2000 else 1250) srp) <= 4 * count.
Proof. exact (enc_regions hr dt_us sr_hz sr_pcm_hz srp). Qed.
Print Assumptions C05_encoder_memory.

(** C05 and C06: layout of the decoder after any number [k] of frames.
    The output window is in the history area of [cycle] frames (18 ms and more
    unless at 96 kHz), moves cyclically frame by frame, and the history, the
    delayed samples and the concealment spectrum are disjoint and inside. *)
Theorem C05_C06_decoder_memory hr dt_us sr_hz sr_pcm_hz srp :
  srp = (if sr_pcm_hz <=? 0 then sr_hz else sr_pcm_hz) ->
  supported hr dt_us sr_hz -> supported hr dt_us srp -> sr_hz <= srp ->
  exists c count,
    hr_setup_decoder hr dt_us sr_hz sr_pcm_hz = Some (Some (c, count)) /\
    (forall s, hr_decoder_size s hr dt_us srp = Some (s + 4 * (count - 1))) /\
    exists cycle, 1 <= cycle /\
    (srp <= 48000 -> samples 18000 srp < cycle * samples dt_us srp) /\
    forall k : nat,
      let ck := Nat.iter k complete c in
      let ns := samples dt_us srp in
      d_dt ck = d_dt c /\ d_sr ck = d_sr c /\ d_srp ck = d_srp c /\
      d_xs ck = ns * ((cycle - 1 + Z.of_nat k) mod cycle) /\
      0 <= d_xh ck /\ d_xh ck <= d_xs ck /\
      d_xs ck + ns <= d_xh ck + cycle * ns /\
      d_xh ck + cycle * ns <= d_xd ck /\
      d_xd ck + samples dt_us srp / 2 +
         samples (if dt_us =? 7500 then 2000 else 1250) srp <= d_xg ck /\
      d_xg ck + ns <= count.
Proof. exact (dec_regions hr dt_us sr_hz sr_pcm_hz srp). Qed.
Print Assumptions C05_C06_decoder_memory.

(** The setup functions return NULL exactly for the other arguments. *)
Theorem C05_setup_null hr dt_us sr_hz sr_pcm_hz srp :
  srp = (if sr_pcm_hz <=? 0 then sr_hz else sr_pcm_hz) ->
  ~ (supported hr dt_us sr_hz /\ supported hr dt_us srp /\ sr_hz <= srp) ->
  hr_setup_encoder hr dt_us sr_hz sr_pcm_hz = Some None /\
  hr_setup_decoder hr dt_us sr_hz sr_pcm_hz = Some None.
Proof. exact (setup_null hr dt_us sr_hz sr_pcm_hz srp). Qed.
Print Assumptions C05_setup_null.
Example C05_example :
  supported false 10000 16000 /\ supported false 10000 48000 /\
  hr_setup_decoder false 10000 16000 48000 =
    Some (Some (mkDec 3 1 4 0 960 1440 1740, 2220)).
Proof. unfold supported, supported_dt, supported_sr. cbn. intuition. Qed.
