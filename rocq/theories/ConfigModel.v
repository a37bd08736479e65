(** * Model of the configuration API: src/lc3.c, src/tables.h, lc3_private.h
    Definitions only. Both LC3_PLUS and LC3_PLUS_HR are 1 (the defaults of
    src/common.h lines 37-43). C [int] operations are checked: [None] is the
    undefined behaviour of a signed overflow or of a division by zero. *)
From Coq Require Import ZArith List Bool.
From Verif Require Import Base.
Import ListNotations.
Local Open Scope Z_scope.

(** ** Checked C [int] arithmetic *)
Definition cint (x : Z) : option Z :=
  if (INT_MIN <=? x) && (x <=? INT_MAX) then Some x else None.
Definition bind {A B} (o : option A) (f : A -> option B) : option B :=
  match o with Some x => f x | None => None end.
Notation "'do' x <- o ; e" := (bind o (fun x => e))
  (at level 200, x name, o at level 100, e at level 200).
Definition cadd (a b : Z) := cint (a + b).
Definition csub (a b : Z) := cint (a - b).
Definition cmul (a b : Z) := cint (a * b).
(** C division truncates towards zero. *)
Definition cdiv (a b : Z) := if b =? 0 then None else cint (Z.quot a b).
Definition cmod (a b : Z) := if b =? 0 then None else cint (Z.rem a b).

(** ** Identifiers *)

(** include/lc3_private.h lines 57-64: enum lc3_dt (0..3, 4 = LC3_NUM_DT)
    include/lc3_private.h lines 71-81: enum lc3_srate (0..6, 7 = LC3_NUM_SRATE) *)
Definition NUM_DT : Z := 4.
Definition NUM_SRATE : Z := 7.
Definition DT_2M5 : Z := 0.
Definition DT_5M : Z := 1.
Definition DT_7M5 : Z := 2.
Definition DT_10M : Z := 3.
Definition SRATE_8K : Z := 0.
Definition SRATE_16K : Z := 1.
Definition SRATE_24K : Z := 2.
Definition SRATE_32K : Z := 3.
Definition SRATE_48K : Z := 4.
Definition SRATE_48K_HR : Z := 5.
Definition SRATE_96K_HR : Z := 6.

(** src/lc3.c lines 59-65: resolve_dt. *)
Definition resolve_dt (us : Z) (hrmode : bool) : Z :=
  if us =? 2500 then DT_2M5 else
  if us =? 5000 then DT_5M else
  if negb hrmode && (us =? 7500) then DT_7M5 else
  if us =? 10000 then DT_10M else NUM_DT.

(** src/lc3.c lines 73-84: resolve_srate. *)
Definition resolve_srate (hz : Z) (hrmode : bool) : Z :=
  if negb hrmode && (hz =? 8000) then SRATE_8K else
  if negb hrmode && (hz =? 16000) then SRATE_16K else
  if negb hrmode && (hz =? 24000) then SRATE_24K else
  if negb hrmode && (hz =? 32000) then SRATE_32K else
  if negb hrmode && (hz =? 48000) then SRATE_48K else
  if hrmode && (hz =? 48000) then SRATE_48K_HR else
  if hrmode && (hz =? 96000) then SRATE_96K_HR else NUM_SRATE.

(** src/common.h lines 119-121: lc3_hr. *)
Definition is_hr (sr : Z) : bool := SRATE_48K_HR <=? sr.

(** ** Characteristics *)

(** src/tables.c lines 27-55: lc3_ns_2m5, lc3_ne_2m5, lc3_ns_4m. *)
Definition ns_2m5 (sr : Z) : Z := znth [20; 40; 60; 80; 120; 120; 240] sr 0.
Definition ne_2m5 (sr : Z) : Z := znth [20; 40; 60; 80; 100; 120; 240] sr 0.
Definition ns_4m (sr : Z) : Z := znth [32; 64; 96; 128; 192; 192; 384] sr 0.

(** src/tables.h lines 46-68: lc3_ns, lc3_ne, lc3_nd, lc3_nh, lc3_nt. *)
Definition c_ns (dt sr : Z) : Z := ns_2m5 sr * (1 + dt).
Definition c_ne (dt sr : Z) : Z := ne_2m5 sr * (1 + dt).
Definition c_nd (dt sr : Z) : Z :=
  (c_ns dt sr + (if dt =? DT_7M5 then ns_4m sr else ns_2m5 sr)) / 2.
Definition c_nh (dt sr : Z) : Z :=
  if SRATE_48K_HR <? sr then 0 else (8 + b2z (dt =? DT_7M5)) * ns_2m5 sr.
Definition c_nt (sr : Z) : Z := ns_2m5 sr / 2.

(** src/tables.c lines 62-74: lc3_frame_bytes_hr_lim; the 7.5 ms row is not
    initialised by the source, that is zero. *)
Definition frame_bytes_hr_lim (dt i : Z) : Z * Z :=
  znth (znth [ [(27, 210); (31, 210)]; [(46, 375); (54, 375)];
               [(0, 0); (0, 0)]; [(78, 625); (93, 625)] ] dt []) i (0, 0).

(** src/tables.h lines 83-91: lc3_min_frame_bytes, lc3_max_frame_bytes;
    include/lc3.h lines 186-187. *)
Definition min_frame_bytes (dt sr : Z) : Z :=
  if is_hr sr then fst (frame_bytes_hr_lim dt (sr - SRATE_48K_HR)) else 20.
Definition max_frame_bytes (dt sr : Z) : Z :=
  if is_hr sr then snd (frame_bytes_hr_lim dt (sr - SRATE_48K_HR)) else 400.

(** ** API functions *)

(** src/lc3.c lines 89-98: lc3_hr_frame_samples. *)
Definition hr_frame_samples (hr : bool) (dt_us sr_hz : Z) : option Z :=
  let dt := resolve_dt dt_us hr in
  let sr := resolve_srate sr_hz hr in
  if (NUM_DT <=? dt) || (NUM_SRATE <=? sr) then Some (-1)
  else do n <- cadd 1 dt; cmul (ns_2m5 sr) n.

(** src/lc3.c lines 108-123: lc3_hr_frame_block_bytes. *)
Definition hr_frame_block_bytes (hr : bool) (dt_us sr_hz nch bitrate : Z)
  : option Z :=
  let dt := resolve_dt dt_us hr in
  let sr := resolve_srate sr_hz hr in
  if (NUM_DT <=? dt) || (NUM_SRATE <=? sr) ||
     (nch <? 1) || (8 <? nch) || (bitrate <? 0) then Some (-1)
  else
    do bmax <- cmul 8 672000;
    let bitrate := clip bitrate 0 bmax in
    do n <- cadd 1 dt;
    do x <- cmul bitrate n;
    do q <- cdiv x 3200;
    do lo <- cmul nch (min_frame_bytes dt sr);
    do hi <- cmul nch (max_frame_bytes dt sr);
    Some (clip q lo hi).

(** src/lc3.c lines 130-134: lc3_hr_frame_bytes. *)
Definition hr_frame_bytes (hr : bool) (dt_us sr_hz bitrate : Z) : option Z :=
  hr_frame_block_bytes hr dt_us sr_hz 1 bitrate.

(** src/lc3.c lines 125-128 and 136-139: lc3_frame_block_bytes, lc3_frame_bytes. *)
Definition frame_block_bytes (dt_us nch bitrate : Z) : option Z :=
  hr_frame_block_bytes false dt_us 8000 nch bitrate.
Definition frame_bytes (dt_us bitrate : Z) : option Z :=
  hr_frame_bytes false dt_us 8000 bitrate.

(** C [int64_t] check for src/lc3.c line 153. *)
Definition c64 (x : Z) : option Z :=
  if (- 2 ^ 63 <=? x) && (x <? 2 ^ 63) then Some x else None.

(** src/lc3.c lines 144-154: lc3_hr_resolve_bitrate; the arithmetic is done on
    64 bits, [dt] being converted. The result is converted back to [int]. *)
Definition hr_resolve_bitrate (hr : bool) (dt_us sr_hz nbytes : Z) : option Z :=
  let dt := resolve_dt dt_us hr in
  let sr := resolve_srate sr_hz hr in
  if (NUM_DT <=? dt) || (NUM_SRATE <=? sr) || (nbytes <? 0) then Some (-1)
  else
    do x <- c64 (nbytes * 3200);
    do y <- c64 (x + dt);
    do q <- (if 1 + dt =? 0 then None else c64 (Z.quot y (1 + dt)));
    cint (Z.min q INT_MAX).

(** src/lc3.c lines 164-173: lc3_hr_delay_samples. *)
Definition hr_delay_samples (hr : bool) (dt_us sr_hz : Z) : option Z :=
  let dt := resolve_dt dt_us hr in
  let sr := resolve_srate sr_hz hr in
  if (NUM_DT <=? dt) || (NUM_SRATE <=? sr) then Some (-1)
  else do x <- cmul 2 (c_nd dt sr); csub x (c_ns dt sr).

(** ** Memory *)

(** include/lc3_private.h lines 39-52: LC3_NS, LC3_ND, LC3_NH, LC3_NT,
    evaluated on the API values. *)
Definition NS (dt_us sr_hz : Z) : option Z :=
  do x <- cmul dt_us sr_hz; do y <- cdiv x 1000; cdiv y 1000.
Definition ND (dt_us sr_hz : Z) : option Z :=
  do a <- NS dt_us sr_hz; do b <- cdiv a 2;
  do c <- NS (if dt_us =? 7500 then 2000 else 1250) sr_hz; cadd b c.
Definition NH (dt_us sr_hz : Z) : option Z :=
  if 48000 <? sr_hz then Some 0 else
  do a <- NS 18000 sr_hz; do b <- NS dt_us sr_hz; do m <- cmod a b;
  do s <- cadd a b; csub s m.
Definition NT (sr_hz : Z) : option Z := NS 1250 sr_hz.

(** include/lc3_private.h lines 127-129: LC3_ENCODER_BUFFER_COUNT. *)
Definition enc_buffer_count (dt_us sr_hz : Z) : option Z :=
  do s <- NS dt_us sr_hz; do t <- NT sr_hz; do d <- ND dt_us sr_hz;
  do a <- cadd s t; do h <- cdiv a 2; do b <- cadd h s; cadd b d.

(** include/lc3_private.h lines 164-166: LC3_DECODER_BUFFER_COUNT. *)
Definition dec_buffer_count (dt_us sr_hz : Z) : option Z :=
  do h <- NH dt_us sr_hz; do s <- NS dt_us sr_hz; do d <- ND dt_us sr_hz;
  do a <- cadd h s; do b <- cadd a d; cadd b s.

(** src/lc3.c lines 371-379: lc3_hr_encoder_size. [sizeof_enc] stands for
    [sizeof(struct lc3_encoder)], which includes one element of [x].
    [unsigned]/[size_t] arithmetic, far from wrapping for any plausible size. *)
Definition hr_encoder_size (sizeof_enc : Z) (hr : bool) (dt_us sr_hz : Z)
  : option Z :=
  if (NUM_DT <=? resolve_dt dt_us hr) || (NUM_SRATE <=? resolve_srate sr_hz hr)
  then Some 0
  else do n <- enc_buffer_count dt_us sr_hz; do m <- csub n 1;
       Some (sizeof_enc + m * 4).

(** src/lc3.c lines 677-685: lc3_hr_decoder_size. *)
Definition hr_decoder_size (sizeof_dec : Z) (hr : bool) (dt_us sr_hz : Z)
  : option Z :=
  if (NUM_DT <=? resolve_dt dt_us hr) || (NUM_SRATE <=? resolve_srate sr_hz hr)
  then Some 0
  else do n <- dec_buffer_count dt_us sr_hz; do m <- csub n 1;
       Some (sizeof_dec + m * 4).

(** Region offsets of an encoder, src/lc3.c lines 404-414, and of a decoder,
    lines 710-721, in elements of [x]. [e_xt] counts 16-bit elements. *)
Record enc_cfg := mkEnc { e_dt : Z; e_sr : Z; e_srp : Z;
                          e_xt : Z; e_xs : Z; e_xd : Z }.
Record dec_cfg := mkDec { d_dt : Z; d_sr : Z; d_srp : Z;
                          d_xh : Z; d_xs : Z; d_xd : Z; d_xg : Z }.

(** src/lc3.c lines 389-421: lc3_hr_setup_encoder, on a non-NULL memory.
    The result pairs the state with the number of elements cleared by memset. *)
Definition hr_setup_encoder (hr : bool) (dt_us sr_hz sr_pcm_hz : Z)
  : option (option (enc_cfg * Z)) :=
  let sr_pcm_hz := if sr_pcm_hz <=? 0 then sr_hz else sr_pcm_hz in
  let dt := resolve_dt dt_us hr in
  let sr := resolve_srate sr_hz hr in
  let srp := resolve_srate sr_pcm_hz hr in
  if (NUM_DT <=? dt) || (NUM_SRATE <=? srp) || (srp <? sr) then Some None
  else
    let ns := c_ns dt srp in
    let nt := c_nt srp in
    do n <- enc_buffer_count dt_us sr_pcm_hz;
    Some (Some (mkEnc dt sr srp nt ((nt + ns) / 2) ((nt + ns) / 2 + ns), n)).

(** src/lc3.c lines 695-729: lc3_hr_setup_decoder. *)
Definition hr_setup_decoder (hr : bool) (dt_us sr_hz sr_pcm_hz : Z)
  : option (option (dec_cfg * Z)) :=
  let sr_pcm_hz := if sr_pcm_hz <=? 0 then sr_hz else sr_pcm_hz in
  let dt := resolve_dt dt_us hr in
  let sr := resolve_srate sr_hz hr in
  let srp := resolve_srate sr_pcm_hz hr in
  if (NUM_DT <=? dt) || (NUM_SRATE <=? srp) || (srp <? sr) then Some None
  else
    let nh := c_nh dt srp in
    let ns := c_ns dt srp in
    let nd := c_nd dt srp in
    do n <- dec_buffer_count dt_us sr_pcm_hz;
    Some (Some (mkDec dt sr srp 0 nh (nh + ns) (nh + ns + nd), n)).

(** src/lc3.c lines 663-672: complete. *)
Definition complete (d : dec_cfg) : dec_cfg :=
  let nh := c_nh (d_dt d) (d_srp d) in
  let ns := c_ns (d_dt d) (d_srp d) in
  mkDec (d_dt d) (d_sr d) (d_srp d) (d_xh d)
    (if d_xs d - d_xh d <? nh then d_xs d + ns else d_xh d)
    (d_xd d) (d_xg d).
