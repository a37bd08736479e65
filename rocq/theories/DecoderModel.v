(** * The decoder calls: return codes and concealment of lost frames
    Finite single precision numbers are integers in units of 2^-149 ([FloatModel]). *)
From Coq Require Import ZArith List Bool.
From Verif Require Import Base ConfigModel FloatModel FrameModel.
Import ListNotations.
Local Open Scope Z_scope.

(** Product of single precision numbers: the exact product is a multiple of 2^-298,
    it is rounded to the nearest (ties to even) multiple of 2^-149 of 24 bits. *)
Definition rnd_min (m a : Z) : Z :=
  let e := Z.max m (Z.log2 a - 23) in
  let q := a / 2 ^ e in
  let r := a mod 2 ^ e in
  (if (2 * r <? 2 ^ e) || ((2 * r =? 2 ^ e) && Z.even q) then q else q + 1) * 2 ^ e.
Definition fmul (x y : Z) : Z := Z.sgn x * Z.sgn y * (rnd_min 149 (Z.abs x * Z.abs y) / 2 ^ 149).

(** ** Packet loss concealment *)

(** include/lc3_private.h lines 150-154: struct lc3_plc_state. *)
Record plc_state := mkPlc { p_seed : Z; p_count : Z; p_alpha : Z }.

(** src/plc.c lines 35-39: lc3_plc_suspend; lines 26-30: lc3_plc_reset. *)
Definition plc_suspend (p : plc_state) : plc_state := mkPlc (p_seed p) 1 one.
Definition plc_reset : plc_state := plc_suspend (mkPlc 24607 0 0).

(** src/plc.c lines 51-52; 0.9f and 0.85f are 15099494 and 14260634 by 2^-24. *)
Definition plc_factor (count : Z) : Z :=
  if count <? 4 then one
  else if count <? 8 then 15099494 * 2 ^ 125 else 14260634 * 2 ^ 125.

(** src/plc.c lines 54-57. *)
Fixpoint plc_loop (alpha seed : Z) (xs : list Z) : list Z * Z :=
  match xs with
  | [] => ([], seed)
  | x :: xs =>
      let seed := Z.land (16831 + seed * 12821) 65535 in
      let y := fmul alpha (if Z.land seed 32768 =? 0 then x else - x) in
      let '(ys, seed) := plc_loop alpha seed xs in
      (y :: ys, seed)
  end.

(** src/plc.c lines 44-62: lc3_plc_synthesize, [xs] are the [ne] coefficients. [None]
    is the overflow of the counter. *)
Definition plc_synthesize (p : plc_state) (xs : list Z) : option (list Z * plc_state) :=
  let alpha := fmul (p_alpha p) (plc_factor (p_count p)) in
  let '(ys, seed) := plc_loop alpha (p_seed p) xs in
  match cint (p_count p + 1) with
  | Some count => Some (ys, mkPlc seed count alpha)
  | None => None
  end.

(** ** Decoder *)

(** The state the spectrum depends on: [x_xg] are the [ne] coefficients at [xg_off]. *)
Record dec_state := mkState { x_cfg : dec_cfg; x_plc : plc_state; x_xg : list Z }.

(** src/lc3.c lines 695-729: the state after a setup, memory cleared. *)
Definition dec_init (c : dec_cfg) : dec_state :=
  mkState c plc_reset (repeat 0 (Z.to_nat (c_ne (d_dt c) (d_sr c)))).

(** src/lc3.c lines 618-657: synthesize, to the spectrum given to lc3_mdct_inverse.
    [shape] stands for the spectral synthesis (noise filling and gain, lc3_tns_synthesize
    and lc3_sns_synthesize), a function of the decoded frame only. *)
Definition synthesize (shape : decoded -> list Z) (st : dec_state) (o : option decoded)
  : option (list Z * dec_state) :=
  match o with
  | Some d => let y := shape d in Some (y, mkState (x_cfg st) (plc_suspend (x_plc st)) y)
  | None =>
      match plc_synthesize (x_plc st) (x_xg st) with
      | Some (y, p) => Some (y, mkState (x_cfg st) p (x_xg st))
      | None => None
      end
  end.

(** src/lc3.c lines 740-772: lc3_decode, a NULL handle or a NULL input are [None].
    The result has the return value, the spectrum output if any and the state. *)
Definition lc3_decode (shape : decoded -> list Z) (lf_first : bool) (hw : Z -> Z)
  (st : option dec_state) (inp : option (list Z)) (nbytes : Z)
  : option (Z * option (list Z) * option dec_state) :=
  match st with
  | None => Some (-1, None, None)
  | Some s =>
      let c := x_cfg s in
      if match inp with
         | Some _ => (nbytes <? 20) || (max_frame_bytes (d_dt c) (d_sr c) <? nbytes)
         | None => false end
      then Some (-1, None, st)
      else
        let o := match inp with
          | Some data => decode lf_first hw (firstn (Z.to_nat nbytes) data) (d_dt c) (d_sr c)
          | None => None end in
        match synthesize shape s o with
        | None => None
        | Some (y, s) =>
            Some (match o with Some _ => 0 | None => 1 end, Some y,
                  Some (mkState (complete (x_cfg s)) (x_plc s) (x_xg s)))
        end
  end.

(** ** Encoder *)

(** src/lc3.c lines 436-460: lc3_encode, a NULL handle is [None]. [analyse] stands for
    the load of the samples and the analysis of the signal (src/lc3.c lines 190-328), that
    gives the frame to code; [out] is the memory at the output pointer. *)
Definition lc3_encode {E P : Type} (analyse : E -> P -> Z -> frame * E)
  (h : option (enc_cfg * E)) (pcm : P) (nbytes : Z) (out : list Z)
  : Z * list Z * option (enc_cfg * E) :=
  match h with
  | None => (-1, out, None)
  | Some (c, e) =>
      if (nbytes <? min_frame_bytes (e_dt c) (e_sr c)) || (max_frame_bytes (e_dt c) (e_sr c) <? nbytes)
      then (-1, out, h)
      else
        let '(f, e) := analyse e pcm nbytes in
        (0, encode (firstn (Z.to_nat nbytes) out) (e_dt c) (e_sr c) f ++ skipn (Z.to_nat nbytes) out,
         Some (c, e))
  end.
