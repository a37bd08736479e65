(** * Specification of the encoder in high resolution: what a frame holds *)
From Coq Require Import Reals ZArith List Bool.
From Flocq Require Import Core.Core IEEE754.BinarySingleNaN.
From Verif Require Import Base ConfigModel ConfigSpec FloatModel ResidualModel ResidualSpec SideModel SideSpec SpecSpec FrameModel FrameSpec BudgetModel BudgetSpec GainModel.
From Verif Require Import FrontModel F32Model P_Silence EncModel EncSpec.
Import ListNotations.
Local Open Scope Z_scope.

(** The shaped spectrum is within the reach of the quantizer (256 times larger than at the standard
    rates), and the side data leave bits for it. *)
Definition in_reach_hr (dt sr nbytes : Z) (h : shaped) : Prop :=
  Forall (fun v => is_finite v = true /\ (Rabs (B2R v) <= 1480000)%R /\ (Rabs (B2R v) <= 8388096 * gain sr nbytes 255)%R) (firstn (Z.to_nat (c_ne dt sr)) (h_x h)) /\
  0 < spec_budget dt sr nbytes (h_pitch h) (h_tns h).

(** The frame [f] holds the data of [h], as [frame_of]; it can be coded unless a coefficient is the
    float just below 1/2 (see C23). *)
Definition frame_of_hr (dt sr nbytes : Z) (h : shaped) (f : frame) : Prop :=
  f_bw f = h_bw h /\ f_tns f = h_tns h /\ f_pitch f = h_pitch h /\ f_sns f = h_sns h /\ FrameModel.f_ltpf f = h_ltpf h /\
  (Forall (fun x => Z.abs x <> one / 2 - one / 2 ^ 25) (f_x f) ->
   frame_ok dt sr nbytes f \/ q_nq (f_side f) = 0 /\ f_x f = [] /\ frame_ok dt sr nbytes (at_least_two f)) /\
  exists us n bits,
    f_x f = firstn (Z.to_nat (q_nq (f_side f))) us /\
    Forall2 (fun v u => let y := (B2R v / gain sr nbytes (q_gidx (f_side f)))%R in
      (Rabs (IZR u * bpow radix2 (-149) - y) <= / 2 ^ 16 * Rabs y + bpow radix2 (-146))%R) (firstn (Z.to_nat (c_ne dt sr)) (h_x h)) us /\
    q_nq (f_side f) <= n <= zlen us /\ spectrum_ok dt sr (map (quant rnd true) (firstn (Z.to_nat n) us)) /\
    compute_nbits dt sr nbytes (map (quant rnd true) (firstn (Z.to_nat n) us)) (spec_budget dt sr nbytes (h_pitch h) (h_tns h)) =
      (q_nq (f_side f), bits, q_lsb (f_side f)).

(** What a call returns. *)
Definition returned_hr (c : enc_cfg) (k : ecall) (oh : option shaped) (r : Z * list Z * bool) : Prop :=
  match oh with
  | None => accepted c (fst (fst k)) = false /\ r = (-1, snd k, false)
  | Some h => accepted c (fst (fst k)) = true /\
      exists f, frame_of_hr (e_dt c) (e_sr c) (fst (fst k)) h f /\ r = (0, encode (snd k) (e_dt c) (e_sr c) f, h_over h)
  end.
