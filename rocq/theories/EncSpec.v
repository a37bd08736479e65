(** * Specification of the encoder: sequences of calls, and what a frame holds *)
From Coq Require Import Reals ZArith List Bool.
From Flocq Require Import Core.Core IEEE754.BinarySingleNaN.
From Verif Require Import Base ConfigModel ConfigSpec FloatModel ResidualModel ResidualSpec SideModel SideSpec SpecSpec FrameModel FrameSpec BudgetModel BudgetSpec GainModel.
From Verif Require Import FrontModel F32Model P_Silence EncModel.
Import ListNotations.
Local Open Scope Z_scope.

(** A call is accepted when the size of the frame is in the limits of the configuration. *)
Definition accepted (c : enc_cfg) (nbytes : Z) : bool :=
  (min_frame_bytes (e_dt c) (e_sr c) <=? nbytes) && (nbytes <=? max_frame_bytes (e_dt c) (e_sr c)).

(** One frame of samples: 16-bit integers and any floats; and an output of the given size. *)
Definition ecall_ok (dt_us srp_hz : Z) (k : ecall) : Prop :=
  let '(nbytes, pcm, out) := k in
  zlen pcm = samples dt_us srp_hz /\ Forall (fun p => -32768 <= fst p <= 32767) pcm /\ zlen out = nbytes /\ bytes out.

(** The analysis of the successive calls up to the shaped spectrum: it does not depend on
    the spectrum stage. [None] for a call that is refused. *)
Fixpoint shape_run (nan : Z) (lit : Z -> f32) (junk : f32) (junkd : ltpf_data) (c : enc_cfg) (bypass : bool) (fr : front f32) (mem : list f32)
    (calls : list ecall) : option (list (option shaped)) :=
  match calls with
  | [] => Some []
  | (nbytes, pcm, _) :: calls =>
      if accepted c nbytes then
        do r <- shape_frame nan lit junk junkd c bypass nbytes pcm fr mem;
        let '(h, fr, mem) := r in
        do hs <- shape_run nan lit junk junkd c bypass fr mem calls;
        Some (Some h :: hs)
      else
        do hs <- shape_run nan lit junk junkd c bypass fr mem calls;
        Some (None :: hs)
  end.

(** The side data of the analysis can be written in a frame. *)
Definition side_codable (dt sr nbytes : Z) (h : shaped) : Prop :=
  bw_ok sr (h_bw h) /\ sns_ok (h_sns h) /\ tns_ok dt (h_bw h) nbytes (h_tns h) /\ (h_pitch h = true -> ltpf_ok (h_ltpf h)).

(** The gain of the index [g]. *)
Definition gain (sr nbytes g : Z) : R := Rpower 10 (IZR (g - gain_offset sr nbytes) / 28).

(** The shaped spectrum is within the reach of the quantizer, and the side data leave bits for
    it. *)
Definition in_reach (dt sr nbytes : Z) (h : shaped) : Prop :=
  Forall (fun v => is_finite v = true /\ (Rabs (B2R v) <= 1480000)%R /\ (Rabs (B2R v) <= 32766 * gain sr nbytes 255)%R) (firstn (Z.to_nat (c_ne dt sr)) (h_x h)) /\
  0 < spec_budget dt sr nbytes (h_pitch h) (h_tns h).

(** The frame [f] holds the data of [h]: the side data; the first coefficients, divided by the gain,
    to 2^-16; it can be coded, and its count of coefficients, possibly null, is that of the
    budget. *)
Definition frame_of (dt sr nbytes : Z) (h : shaped) (f : frame) : Prop :=
  f_bw f = h_bw h /\ f_tns f = h_tns h /\ f_pitch f = h_pitch h /\ f_sns f = h_sns h /\ FrameModel.f_ltpf f = h_ltpf h /\
  (frame_ok dt sr nbytes f \/ q_nq (f_side f) = 0 /\ f_x f = [] /\ frame_ok dt sr nbytes (at_least_two f)) /\
  exists us n bits,
    f_x f = firstn (Z.to_nat (q_nq (f_side f))) us /\
    Forall2 (fun v u => let y := (B2R v / gain sr nbytes (q_gidx (f_side f)))%R in
      (Rabs (IZR u * bpow radix2 (-149) - y) <= / 2 ^ 16 * Rabs y + bpow radix2 (-146))%R) (firstn (Z.to_nat (c_ne dt sr)) (h_x h)) us /\
    q_nq (f_side f) <= n <= zlen us /\ spectrum_ok dt sr (map (quant rnd false) (firstn (Z.to_nat n) us)) /\
    compute_nbits dt sr nbytes (map (quant rnd false) (firstn (Z.to_nat n) us)) (spec_budget dt sr nbytes (h_pitch h) (h_tns h)) =
      (q_nq (f_side f), bits, q_lsb (f_side f)).
