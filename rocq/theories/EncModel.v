(** * The encoder from the samples to the bytes of a frame: src/lc3.c
    All the steps of a call, in binary32 ([F32Model]). An access out of an array, or out of
    the part of the memory that a function is given, and a conversion out of range are
    [None]; a flag is set on a signed overflow of the time domain analysis. *)
From Coq Require Import ZArith List Bool.
From Verif Require Import Base ConfigModel FloatModel SideModel FrameModel FloatOps F32Model.
From Verif Require Import MdctModel MdctWindows LtpfModel FrontModel BandModel SnsModel TnsModel SynthModel SpecEncModel.
Import ListNotations.
Local Open Scope Z_scope.

Section Enc.
(** [nan] is the pattern of a NaN; [lit z] the constant [z / 10^18] of a table in decimal;
    [junk] and [junkd] the content of the local variables that are not initialised. *)
Context (nan : Z) (lit : Z -> f32) (junk : f32) (junkd : ltpf_data).
Let fl : fops f32 := f32_ops nan.
Let f0 : f32 := f_z fl 0.

(** include/lc3_private.h lines 115-127: struct lc3_encoder. The 16-bit samples at the start of
    [x] are in [y_front]; [y_mem] are the floats of [x] (those of the 16-bit samples are not
    used: see the layout, C05). *)
Record enc := mkEncF { y_cfg : enc_cfg; y_bypass : bool; y_front : front f32; y_spec : spec_state; y_mem : list f32 }.

(** src/mdct.c lines 430-450: lc3_mdct_forward, with the tables of src/tables.c. *)
Definition forward (dt srp sr : Z) (x d y : list f32) : option (list f32 * list f32) :=
  let ns := c_ns dt srp in let ns_dst := c_ns dt sr in
  mdct_forward f0 (f_add fl) (f_sub fl) (f_mul fl) (f_opp fl)
    (code_fft (fun z => f_dy fl z 80)) (code_rot (fun z => f_dy fl z 80) dt srp) ns (c_nd dt srp)
    (code_win (fun z => f_dy fl z 47) dt srp) ns_dst (f_sqrt fl (f_div fl (f_z fl ns_dst) (f_z fl ns)))
    x d y (repeat junk (Z.to_nat MAX_NS)).

(** src/lc3.c lines 302-306: attdet, ltpf analysis and memmove. *)
Definition temporal (dt srp : Z) (bypass : bool) (st : front f32) (nbytes : Z) (pcm : list Z) :=
  front_frame f0 (f_add fl) (f_sub fl) (f_mul fl) (f_div fl) (f_sqrt fl) (f_lt fl) (f_le fl) (f_z fl) lit
    dt srp bypass st (mkCall nbytes pcm) junkd.

(** What analyze gives before the spectrum stage: presence of a pitch and data of the postfilter,
    bandwidth, spectral and temporal shaping; the shaped spectrum; the overflow flag. *)
Record shaped := mkShaped { h_pitch : bool; h_ltpf : ltpf_data; h_bw : Z; h_sns : sns_data; h_tns : tns_data;
                            h_x : list f32; h_over : bool }.

(** src/ltpf.c lines 933-936: lc3_ltpf_disable. *)
Definition ltpf_disable (d : ltpf_data) : ltpf_data := mkLtpf 0 (l_pitch d).

(** src/lc3.c lines 202-203 (stores of the load functions) and lines 285-326: analyze up to
    lc3_tns_analyze; [pcm] are the samples given by the load function, as 16-bit integers
    and as floats. The window [xs] is source and destination of the transform. Returns the new
    state of the time domain analysis and the memory. *)
Definition shape_frame (c : enc_cfg) (bypass : bool) (nbytes : Z) (pcm : list (Z * f32)) (fr : front f32) (mem : list f32)
  : option (shaped * front f32 * list f32) :=
  let dt := e_dt c in let sr := e_sr c in let srp := e_srp c in
  let ns := c_ns dt srp in let nd := c_nd dt srp in
  do mem <- put_at mem (e_xs c) (map snd pcm);
  do t <- temporal dt srp bypass fr nbytes (map fst pcm);
  let '((att, pp, d, fr), over) := t in
  do xs <- rdn mem (e_xs c) ns;
  do xd <- rdn mem (e_xd c) nd;
  do m <- forward dt srp sr xs xd xs;
  let '(xd, xf) := m in
  do e <- energy_compute fl dt sr xf;
  let '(nn, e) := e in
  let d := if nn || bypass then ltpf_disable d else d in
  do bw <- bwdet_run fl dt sr e;
  do s <- sns_analyze fl junk dt sr nbytes e att xf xf;
  let '(sns, _, xf) := s in
  do t <- tns_analyze fl junk dt bw nn nbytes xf;
  let '(tns, xf) := t in
  do mem <- put_at mem (e_xs c) xf;
  do mem <- put_at mem (e_xd c) xd;
  Some (mkShaped pp d bw sns tns xf over, fr, mem).

(** src/lc3.c lines 328-330, end of analyze, and lines 337-363, encode: spectrum stage and
    writing to the [nbytes] bytes of [out]. The scaled spectrum, left by the code in the
    window [xs], is not kept: the next call writes all of the window first. *)
Definition write_frame (c : enc_cfg) (nbytes : Z) (h : shaped) (sp : spec_state) (out : list Z)
  : option (frame * list Z * spec_state) :=
  let dt := e_dt c in let sr := e_sr c in
  do x <- rdn (h_x h) 0 (c_ne dt sr);
  do r <- spectrum32 nan dt sr (h_bw h) nbytes (h_pitch h) (h_tns h) sp x;
  let '(side, nf, us, sp) := r in
  let f := mkFrame (h_bw h) side (h_tns h) (h_pitch h) (h_sns h) (h_ltpf h) nf us in
  Some (f, encode out dt sr f, sp).

(** src/lc3.c lines 436-470: lc3_encode on a valid handle; [pcm] as given by the load
    function, [out] the content of the output at the call. Returns the code, the bytes
    and the overflow flag. *)
Definition lc3_encode (st : enc) (nbytes : Z) (pcm : list (Z * f32)) (out : list Z)
  : option (Z * list Z * bool * enc) :=
  let c := y_cfg st in
  if (nbytes <? min_frame_bytes (e_dt c) (e_sr c)) || (max_frame_bytes (e_dt c) (e_sr c) <? nbytes)
  then Some (-1, out, false, st)
  else
    do h <- shape_frame c (y_bypass st) nbytes pcm (y_front st) (y_mem st);
    let '(h, fr, mem) := h in
    do w <- write_frame c nbytes h (y_spec st) out;
    let '(_, bytes, sp) := w in
    Some (0, bytes, h_over h, mkEncF c (y_bypass st) fr sp mem).

(** src/lc3.c lines 401-422: the encoder after a setup with a memory of [n] floats; lines
    427-431: lc3_encoder_disable_ltpf. *)
Definition enc_init (c : enc_cfg) (n : Z) (bypass : bool) : enc :=
  mkEncF c bypass (front_init f0 (e_dt c) (e_srp c)) spec_init (repeat f0 (Z.to_nat n)).

(** Successive calls: sizes, samples, contents of the output. *)
Definition ecall : Type := Z * list (Z * f32) * list Z.
Fixpoint encode_run (st : enc) (calls : list ecall) : option (list (Z * list Z * bool) * enc) :=
  match calls with
  | [] => Some ([], st)
  | (nbytes, pcm, out) :: calls =>
      do r <- lc3_encode st nbytes pcm out;
      let '(ret, bytes, over, st) := r in
      do r <- encode_run st calls;
      Some ((ret, bytes, over) :: fst r, snd r)
  end.
End Enc.
