(** * The decoder from the bytes of a frame to the samples: src/lc3.c
    All the steps of a call, on the memory of the decoder, on abstract floats
    ([FloatOps]). An access out of an array, or out of the part of the memory that a
    function is given, a signed overflow and a conversion out of range are [None]. *)
From Coq Require Import ZArith List Bool.
From Verif Require Import Base ConfigModel FloatModel SideModel FrameModel NoiseModel FloatOps TnsModel SnsModel.
From Verif Require Import MdctModel MdctWindows LtpfTables LtpfModel.
From Verif Require DecoderModel.
Import ListNotations.
Local Open Scope Z_scope.

Section Synth.
Context {F : Type} (fl : fops F).
(** [lit z] is the constant [z / 10^18] of a table in decimal; [junk] the content of the
    local arrays that are not initialised. *)
Context (lit : Z -> F) (junk : F).
Let f0 : F := f_z fl 0.

(** The memory from [o], to be written with [l]. *)
Definition put_at (mem : list F) (o : Z) (l : list F) : option (list F) :=
  if (0 <=? o) && (o + zlen l <=? zlen mem)
  then Some (firstn (Z.to_nat o) mem ++ l ++ skipn (Z.to_nat (o + zlen l)) mem) else None.

(** src/plc.c lines 44-62: lc3_plc_synthesize on floats; include/lc3_private.h lines
    150-154: struct lc3_plc_state. 0.9f and 0.85f are 15099494 and 14260634 by 2^-24. *)
Record plc := mkPlcF { pf_seed : Z; pf_count : Z; pf_alpha : F }.
Definition plc_suspend (p : plc) : plc := mkPlcF (pf_seed p) 1 (f_z fl 1).
Definition plc_reset : plc := mkPlcF 24607 1 (f_z fl 1).
Fixpoint plc_loop (alpha : F) (seed : Z) (xs : list F) : option (list F * Z) :=
  match xs with
  | [] => Some ([], seed)
  | x :: xs =>
      do m <- cint (seed * 12821); do s <- cint (16831 + m);
      let seed := Z.land s 65535 in
      do r <- plc_loop alpha seed xs;
      Some (f_mul fl alpha (if Z.land seed 32768 =? 0 then x else f_opp fl x) :: fst r, snd r)
  end.
Definition plc_synthesize (p : plc) (xs : list F) : option (list F * plc) :=
  let k := if pf_count p <? 4 then f_z fl 1 else if pf_count p <? 8 then f_dy fl 15099494 24 else f_dy fl 14260634 24 in
  let alpha := f_mul fl (pf_alpha p) k in
  do r <- plc_loop alpha (pf_seed p) xs;
  do count <- cint (pf_count p + 1);
  Some (fst r, mkPlcF (snd r) count alpha).

(** include/lc3_private.h lines 156-172: struct lc3_decoder. *)
Record dec := mkDecF { x_cfg : dec_cfg; x_plc : plc; x_ltpf : @ltpf_state F; x_mem : list F }.

(** src/mdct.c lines 455-475: lc3_mdct_inverse, with the tables of src/tables.c. *)
Definition inverse (dt srp sr : Z) (src : option (list F)) (d y : list F) : option (list F * list F) :=
  let ns := c_ns dt srp in let ns_src := c_ns dt sr in
  mdct_inverse f0 (f_add fl) (f_sub fl) (f_mul fl) (f_opp fl)
    (code_fft (fun z => f_dy fl z 80)) (code_rot (fun z => f_dy fl z 80) dt srp) ns (c_nd dt srp)
    (code_win (fun z => f_dy fl z 47) dt srp) ns_src (f_sqrt fl (f_div fl (f_z fl ns) (f_z fl ns_src)))
    src d y (repeat junk (Z.to_nat MAX_NS)).

(** src/ltpf.c lines 853-931: lc3_ltpf_synthesize, with the tables of src/tables.c. *)
Definition postfilter_frame (dt srp nbytes : Z) (st : @ltpf_state F) (data : option ltpf_data) (mem : list F) (xh x : Z) :=
  ltpf_synthesize f0 (f_add fl) (f_sub fl) (f_mul fl) (f_div fl) (f_z fl)
    (lit 400000000000000000) (lit 50000000000000000) (lit 850000000000000000)
    (map (map (map lit)) ltpf_cden) (map (map (map lit)) ltpf_cnum)
    (repeat junk 48) (repeat junk 24) dt srp nbytes st data mem xh x.

(** src/lc3.c lines 634-642: a frame has been decoded. [xf] are the samples of the window at
    [xs_off] with the spectrum, [xg] and [xd] the other parts of the memory. Returns the
    parts [xg], [xd], and the window. *)
Definition synth_good (dt sr srp : Z) (d : decoded) (xf xg xd : list F) : option (list F * list F * list F) :=
  do xf <- tns_synthesize fl dt (d_bw d) (d_tns d) xf;
  do r <- sns_synthesize fl junk dt sr (d_sns d) xf xg;
  let xg := snd r in
  do r <- inverse dt srp sr (Some xg) xd xf;
  Some (xg, fst r, snd r).

(** src/lc3.c lines 644-650: concealment. *)
Definition synth_lost (dt sr srp : Z) (p : plc) (xf xg xd : list F) : option (plc * list F * list F) :=
  let ne := c_ne dt sr in
  do xs <- rdn xg 0 ne;
  do r <- plc_synthesize p xs;
  do xf <- put_at xf 0 (fst r);
  do xf <- put_at xf ne (repeat f0 (Z.to_nat (c_ns dt srp - ne)));
  do m <- inverse dt srp sr None xd xf;
  Some (snd r, fst m, snd m).

(** src/spec.c lines 952-956 and src/lc3.c line 608: the spectrum in the window (the numbers of
    [spec_finish] are in units of 2^-149), and zeros up to the samples of a frame. *)
Definition put_spectrum (dt sr nbytes : Z) (d : decoded) (xf : list F) : option (list F) :=
  do z <- spec_finish dt sr nbytes d;
  do xf <- put_at xf 0 (map (fun z => f_dy fl z 149) z);
  put_at xf (c_ne dt sr) (repeat f0 (Z.to_nat (c_ns dt sr - c_ne dt sr))).

(** src/lc3.c lines 756-771: decode, synthesize, complete; [o] is what has been parsed of
    the frame, [None] for a lost frame or a failure. On a failure the window may be written in
    part; its content is not used by the concealment. The last result is the [ns] samples to
    store. *)
Definition decode_frame (o : option decoded) (nbytes : Z) (st : dec) : option (list F * dec) :=
  let c := x_cfg st in
  let dt := d_dt c in let sr := d_sr c in let srp := d_srp c in
  let ns := c_ns dt srp in let nd := c_nd dt srp in
  do xf <- rdn (x_mem st) (d_xs c) ns;
  do xg <- rdn (x_mem st) (d_xg c) ns;
  do xd <- rdn (x_mem st) (d_xd c) nd;
  do r <- match o with
    | Some d =>
        do xf <- put_spectrum dt sr nbytes d xf;
        do r <- synth_good dt sr srp d xf xg xd;
        let '(xg, xd, y) := r in Some (plc_suspend (x_plc st), xg, xd, y)
    | None =>
        do r <- synth_lost dt sr srp (x_plc st) xf xg xd;
        let '(p, xd, y) := r in Some (p, xg, xd, y)
    end;
  let '(p, xg, xd, y) := r in
  do mem <- put_at (x_mem st) (d_xs c) y;
  do mem <- put_at mem (d_xd c) xd;
  do mem <- put_at mem (d_xg c) xg;
  do r <- (if is_hr sr then Some (mem, x_ltpf st)
           else postfilter_frame dt srp nbytes (x_ltpf st) (match o with Some d => d_ltpf d | None => None end) mem (d_xh c) (d_xs c));
  let '(mem, l) := r in
  do out <- rdn mem (d_xs c) ns;
  Some (out, mkDecF (complete c) p l mem).

(** src/lc3.c lines 740-772: lc3_decode on a valid handle, up to the samples given to the
    store functions; [inp] is [None] for NULL. *)
Definition lc3_decode (lf_first : bool) (hw : Z -> Z) (st : dec) (inp : option (list Z)) (nbytes : Z)
  : option (Z * option (list F) * dec) :=
  let c := x_cfg st in
  if match inp with
     | Some _ => (nbytes <? 20) || (max_frame_bytes (d_dt c) (d_sr c) <? nbytes)
     | None => false end
  then Some (-1, None, st)
  else
    let o := match inp with
      | Some data => decode lf_first hw (firstn (Z.to_nat nbytes) data) (d_dt c) (d_sr c)
      | None => None end in
    do r <- decode_frame o nbytes st;
    let '(out, st) := r in
    Some (match o with Some _ => 0 | None => 1 end, Some out, st).

(** src/lc3.c lines 695-729: the decoder after a setup with a memory of [n] floats. *)
Definition dec_init (c : dec_cfg) (n : Z) : dec :=
  mkDecF c plc_reset (ltpf_init f0) (repeat f0 (Z.to_nat n)).

(** Successive calls. *)
Fixpoint run_calls (lf_first : bool) (hw : Z -> Z) (st : dec) (calls : list (option (list Z) * Z))
  : option (list (Z * option (list F)) * dec) :=
  match calls with
  | [] => Some ([], st)
  | (inp, nbytes) :: calls =>
      do r <- lc3_decode lf_first hw st inp nbytes;
      let '(ret, out, st) := r in
      do r <- run_calls lf_first hw st calls;
      Some ((ret, out) :: fst r, snd r)
  end.
End Synth.
