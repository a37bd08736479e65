(** * Files of the command line tools: tools/lc3bin.c, tools/wave.c, tools/elc3.c, tools/dlc3.c
    Multi-byte fields are little endian, as on the platforms in use; [long] has 64 bits. *)
From Coq Require Import ZArith List Bool.
From Verif Require Import Base BlockModel.
Import ListNotations.
Local Open Scope Z_scope.

(** A file opened in reading: contents, and position. *)
Record file := mkFile { f_data : list Z; f_pos : Z }.
Definition fopen (data : list Z) : file := mkFile data 0.

(** fread of one object of [n] bytes. *)
Definition fread (f : file) (n : Z) : option (list Z) * file :=
  if f_pos f + n <=? zlen (f_data f) then (Some (slice (f_data f) (f_pos f) n), mkFile (f_data f) (f_pos f + n))
  else (None, mkFile (f_data f) (Z.max (f_pos f) (zlen (f_data f)))).
(** fseek: fails without effect when the position would be negative. *)
Definition fseek_set (f : file) (p : Z) : file := if p <? 0 then f else mkFile (f_data f) p.
Definition fseek_cur (f : file) (d : Z) : file := fseek_set f (f_pos f + d).

(** Little endian integers. *)
Definition le16 (v : Z) : list Z := [u8 v; u8 (v / 2 ^ 8)].
Definition le32 (v : Z) : list Z := [u8 v; u8 (v / 2 ^ 8); u8 (v / 2 ^ 16); u8 (v / 2 ^ 24)].
Definition get16 (l : list Z) (i : Z) : Z := znth l i 0 + 2 ^ 8 * znth l (i + 1) 0.
Definition get32 (l : list Z) (i : Z) : Z := get16 l i + 2 ^ 16 * get16 l (i + 2).

(** ** LC3 binary files *)

(** tools/lc3bin.c line 27: LC3_FILE_ID. *)
Definition LC3_FILE_ID : Z := 0x1C + 256 * 0xCC.
(** include/lc3.h line 188. *)
Definition HR_MAX_FRAME_BYTES : Z := 625.

Record bin_params := mkBin { b_frame_us : Z; b_srate_hz : Z; b_hrmode : bool; b_nchannels : Z; b_nsamples : Z }.

(** tools/lc3bin.c lines 93-115: lc3bin_write_header; the fields are [uint16_t], [epmode]
    is zero. *)
Definition bin_write_header (p : bin_params) (bitrate : Z) : list Z :=
  le16 LC3_FILE_ID ++ le16 (18 + (if b_hrmode p then 2 else 0)) ++ le16 (u16 (Z.quot (b_srate_hz p) 100)) ++
  le16 (u16 (Z.quot bitrate 100)) ++ le16 (u16 (b_nchannels p)) ++ le16 (u16 (Z.quot (b_frame_us p) 10)) ++ le16 0 ++
  le16 (u16 (b_nsamples p)) ++ le16 (u16 (b_nsamples p / 2 ^ 16)) ++ (if b_hrmode p then le16 1 else []).

(** tools/lc3bin.c lines 45-73: lc3bin_read_header. The boolean is set when the shift of
    line 63 leaves [int]: undefined. *)
Definition bin_read_header (f : file) : option (bin_params * bool) * file :=
  let '(h, f) := fread f 18 in
  match h with
  | None => (None, f)
  | Some h =>
      if negb (get16 h 0 =? LC3_FILE_ID) || (get16 h 2 <? 18) then (None, f)
      else
        let '(e, f) := if 1 <=? (get16 h 2 - 18) / 2 then fread f 2 else (Some [0; 0], f) in
        match e with
        | None => (None, f)
        | Some e =>
            let p := mkBin (get16 h 10 * 10) (get16 h 4 * 100) (negb (get16 e 0 =? 0)) (get16 h 8)
                       (get16 h 14 + 2 ^ 16 * get16 h 16) in
            if negb (get16 h 12 =? 0) then (None, f)
            else (Some (p, 2 ^ 31 <=? 2 ^ 16 * get16 h 16), fseek_set f (get16 h 2))
        end
  end.

(** tools/lc3bin.c lines 120-126: lc3bin_write_data. *)
Definition bin_write_data (data : list Z) : list Z := le16 (u16 (zlen data)) ++ data.

(** tools/lc3bin.c lines 78-88: lc3bin_read_data; [None] for -1. A fread of an object of
    0 byte returns 0. *)
Definition bin_read_data (f : file) (nchannels : Z) : option (list Z) * file :=
  let '(h, f) := fread f 2 in
  match h with
  | None => (None, f)
  | Some h =>
      let nbytes := get16 h 0 in
      if nchannels * HR_MAX_FRAME_BYTES <? nbytes then (None, f)
      else if nbytes =? 0 then (None, f)
      else fread f nbytes
  end.

(** ** WAVE files *)

(** tools/wave.c line 27: __WAVE_ID. *)
Definition wave_id (a b c d : Z) : Z := a + 2 ^ 8 * b + 2 ^ 16 * c + 2 ^ 24 * d.
Definition ID_RIFF : Z := wave_id 82 73 70 70.
Definition ID_WAVE : Z := wave_id 87 65 86 69.
Definition ID_FMT : Z := wave_id 102 109 116 32.
Definition ID_DATA : Z := wave_id 100 97 116 97.

Record wave_params := mkWave { v_bitdepth : Z; v_samplesize : Z; v_samplerate : Z; v_nchannels : Z; v_nframes : Z }.

(** tools/wave.c lines 144-176: wave_write_header; the products are taken in [Z], they
    are [int] in C. *)
Definition wave_write_header (p : wave_params) : list Z :=
  let framesize := v_nchannels p * v_samplesize p in
  let data_size := v_nchannels p * v_nframes p * v_samplesize p in
  le32 ID_RIFF ++ le32 (44 + data_size - 8) ++ le32 ID_WAVE ++
  le32 ID_FMT ++ le32 16 ++ le16 1 ++ le16 (v_nchannels p) ++ le32 (v_samplerate p) ++
  le32 (v_samplerate p * v_nchannels p * v_samplesize p) ++ le16 framesize ++ le16 (v_bitdepth p) ++
  le32 ID_DATA ++ le32 data_size.

(** tools/wave.c lines 117-121: search of the data; each turn moves forward by 8 bytes at
    least, [fuel] is larger than the file. *)
Fixpoint wave_search (fuel : nat) (f : file) : option Z * file :=
  match fuel with
  | O => (None, f)
  | S fuel =>
      let '(h, f) := fread f 8 in
      match h with
      | None => (None, f)
      | Some h => if get32 h 0 =? ID_DATA then (Some (get32 h 4), f) else wave_search fuel (fseek_cur f (get32 h 4))
      end
  end.

(** tools/wave.c lines 93-130: wave_read_header. The displacement of line 115 is computed
    in [size_t], and converted to [long]; the sum with 8 is in [uint32_t]. *)
Definition wave_read_header (f : file) : option wave_params * file :=
  let '(a, f) := fread f 12 in
  match a with
  | None => (None, f)
  | Some a =>
      if negb (get32 a 0 =? ID_RIFF) || negb (get32 a 8 =? ID_WAVE) then (None, f)
      else
        let '(m, f) := fread f 24 in
        match m with
        | None => (None, f)
        | Some m =>
            let channels := get16 m 10 in
            let samplerate := get32 m 12 in
            let framesize := get16 m 20 in
            if negb (get32 m 0 =? ID_FMT) || negb ((get16 m 8 =? 1) || (get16 m 8 =? 0xfffe)) ||
               (channels <=? 0) || (samplerate <=? 0) || (framesize <=? 0) ||
               negb (get32 m 16 =? u32 (samplerate * framesize)) then (None, f)
            else
              let f := fseek_cur f (24 - u32 (8 + get32 m 4)) in
              let '(d, f) := wave_search (S (length (f_data f))) f in
              match d with
              | None => (None, f)
              | Some size =>
                  (Some (mkWave (get16 m 22) (framesize / channels) (i32 samplerate) channels (i32 (size / framesize))), f)
              end
        end
  end.

(** ** Loops of the tools *)

(** tools/elc3.c lines 194-195, tools/dlc3.c lines 187-188: samples after resampling. *)
Definition resampled (nsamples from to : Z) : Z := nsamples * to / from.
(** tools/elc3.c line 240, tools/dlc3.c line 222: count of turns, for [total] samples. *)
Definition turns (total frame_samples : Z) : Z := Z.max 0 ((total + frame_samples - 1) / frame_samples).
(** tools/dlc3.c lines 253-258: offset and count of the samples written at the turn [i]. *)
Definition write_part (pcm_samples delay frame_samples i : Z) : Z * Z :=
  let encode_samples := pcm_samples + delay in
  let off := if 0 <? i then 0 else encode_samples - pcm_samples in
  (off, Z.min (frame_samples - off) (encode_samples - i * frame_samples)).
Fixpoint written_from (pcm_samples delay frame_samples : Z) (k : nat) (i : Z) : Z :=
  match k with
  | O => 0
  | S k => snd (write_part pcm_samples delay frame_samples i) + written_from pcm_samples delay frame_samples k (i + 1)
  end.
Definition written (pcm_samples delay frame_samples : Z) : Z :=
  written_from pcm_samples delay frame_samples (Z.to_nat (turns (pcm_samples + delay) frame_samples)) 0.
