(** * C47 for the high resolution modes *)
From Coq Require Import Reals ZArith List Bool Lia Lra ZifyBool.
From Flocq Require Import Core.Core IEEE754.BinarySingleNaN.
From Verif Require Import Base BaseProofs ConfigModel ConfigSpec ConfigProofs FloatModel ResidualModel ResidualSpec SideModel SideSpec SpecSpec BitsModel FrameModel FrameSpec FloatOps F32Model F32Proofs.
From Verif Require Import BudgetModel BudgetSpec P_Budget P_Frame P_Silence FrontModel GainModel GainFloat SpecEncModel SpecEncFloat SpecEncProofs SynthModel EncModel EncSpec EncProofs EncExample P_Enc EncHrSpec EncHr.
Import ListNotations.
Local Open Scope Z_scope.

(** The frames, in high resolution: when the shaped spectra are within the reach of the quantizer and
    the side data leave bits for them, either all the calls return, and write frames which
    hold the data of the analysis ([frame_of_hr]), or the estimation of the gain of a frame
    is undefined ([no_gain]; C37_estimate_hr says when, C37_overflow_refuted and
    C37_low_bits_refuted that it happens).
    Missing: that the spectra of all signals are within this reach. *)
Theorem C47_frames_hr_partial nan lit junk junkd dt_us sr_hz sr_pcm_hz c n bypass calls hs :
  hr_setup_encoder true dt_us sr_hz sr_pcm_hz = Some (Some (c, n)) ->
  Forall (ecall_ok dt_us (if sr_pcm_hz <=? 0 then sr_hz else sr_pcm_hz)) calls ->
  let st := enc_init nan c n bypass in
  shape_run nan lit junk junkd c bypass (y_front st) (y_mem st) calls = Some hs ->
  Forall2 (fun k oh => match oh with Some h => in_reach_hr (e_dt c) (e_sr c) (fst (fst k)) h | None => True end) calls hs ->
  (encode_run nan lit junk junkd st calls = None /\
   Exists (fun p => match snd p with Some h => exists sp, spec_ok sp /\ no_gain nan c (fst (fst (fst p))) sp h | None => False end) (combine calls hs)) \/
  exists outs st', encode_run nan lit junk junkd st calls = Some (outs, st') /\
    Forall2 (fun p r => returned_hr c (fst p) (snd p) r) (combine calls hs) outs.
Proof.
  intros Hs Hk st Es Hr. destruct (C47_analysis nan lit junk junkd true dt_us sr_hz sr_pcm_hz c n bypass calls Hs Hk) as (hs' & Es' & Ha). fold st in Es'.
  assert (hs' = hs) by congruence. subst hs'. destruct (e_setup_geometry _ _ _ _ _ _ Hs) as (S1 & G).
  destruct (encode_run_hr nan lit junk junkd dt_us _ c n bypass G calls (y_front st) (y_mem st) (y_spec st) hs Es) as [N|(outs & st' & E & _ & P)].
  - exact spec_init_ok.
  - clear - Ha Hr. induction Ha as [|k oh calls hs H _ IH]; [constructor|]. inversion Hr. subst. constructor; [|auto]. destruct oh; [|exact H]. tauto.
  - left. exact N.
  - right. exists outs, st'. split; [exact E|exact P].
Qed.
Print Assumptions C47_frames_hr_partial.

(** Such a frame is decoded to its side data, as in [C47_accepted_partial]. *)
Theorem C47_accepted_hr_partial hw dt sr h f out :
  let nbytes := zlen out in
  let symbols := tns_symbols (f_tns f) + spectrum_symbols (f_q sr f) in
  is_hr sr = true -> frame_of_hr dt sr nbytes h f -> in_reach_hr dt sr nbytes h -> bytes out -> 20 <= nbytes <= 625 ->
  Forall (fun x => Z.abs x <> one / 2 - one / 2 ^ 25) (f_x f) ->
  46 * symbols < 2048 * (spare_bits true nbytes + 1) ->
  (0 < q_nq (f_side f) -> exists d, decode true hw (encode out dt sr f) dt sr = Some d /\ same_side f d) /\
  (q_nq (f_side f) = 0 -> Forall (fun c => c = []) (t_filters (f_tns f)) ->
   exists d, decode true hw (encode out dt sr f) dt sr = Some d /\ same_side (at_least_two f) d /\ d_x d = [0; 0]).
Proof.
  cbv zeta. intros Hr (F1 & F2 & F3 & F4 & F5 & F6 & us & n & bits & U1 & U2 & U3 & U4 & U5) (R1 & R2) Hb Hn NB Hsy. specialize (F6 NB). split.
  - intros Hq. destruct F6 as [F6|(F6 & _)]; [|lia].
    destruct (C26_budget_partial hw out dt sr f (map (quant rnd true) (firstn (Z.to_nat n) us)) (q_nq (f_side f)) bits) as (_ & _ & D); auto; try lia.
    + rewrite F2, F3. exact R2.
    + rewrite F2, F3. exact U5.
    + unfold f_q. rewrite Hr, U1, firstn_map, firstn_firstn. do 2 f_equal. lia.
    + rewrite Hr. exact Hsy.
  - intros Hq Ht. destruct F6 as [(_ & (_ & _ & F6 & _) & _)|(_ & F6 & F7)]; [lia|].
    destruct (C24_empty_spectrum hw out dt sr f Hb ltac:(lia) F6 Hq Ht F7) as (_ & _ & d & D1 & D2 & D3 & _). exists d. auto.
Qed.
Print Assumptions C47_accepted_hr_partial.

(** 48 kHz, frames of 2.5 ms (120 samples), 60 bytes: a triangle of amplitude 3000; the size
    of the second call is refused. *)
Definition hr_pcm (k : Z) : list (Z * f32) := map (fun i => let v := ex_wave (120 * k + Z.of_nat i) in (v, f32_of_int v)) (seq 0 120).
Definition hr_calls : list ecall := [(60, hr_pcm 0, repeat 0 60); (19, hr_pcm 5, repeat 0 19)].
Definition hr_enc : enc_cfg * Z := match hr_setup_encoder true 2500 48000 0 with Some (Some cn) => cn | _ => (ex_enc, 0) end.
Definition hr_reach (h : shaped) : bool :=
  forallb (fun v => is_finite v && Bleb (Babs v) (f32_of_int 40000)) (firstn 120 (h_x h)) && (0 <? spec_budget 0 5 60 (h_pitch h) (h_tns h)).
Example C47_hr_example :
  hr_setup_encoder true 2500 48000 0 = Some (Some hr_enc) /\
  let st := enc_init 0 (fst hr_enc) (snd hr_enc) false in
  match shape_run 0 ex_lit ex_junk (mkLtpf 7 7) (fst hr_enc) false (y_front st) (y_mem st) hr_calls with
  | Some [Some h; None] => hr_reach h
  | _ => false
  end = true /\
  match encode_run 0 ex_lit ex_junk (mkLtpf 7 7) st hr_calls with
  | Some ([(0, b0, _); (-1, _, _)], _) => match decode true (fun _ => 0) b0 0 5 with Some d => 2 <? q_nq (d_side d) | None => false end
  | _ => false
  end = true.
Proof. split; [vm_compute; reflexivity|]. cbv zeta. split; vm_compute; reflexivity. Qed.
