(** * C47: no infinity or NaN in the shaped spectra of the encoder *)
From Coq Require Import Reals ZArith List Bool Lia Lra ZifyBool.
From Flocq Require Import Core.Core IEEE754.BinarySingleNaN.
From Verif Require Import Base BaseProofs ConfigModel ConfigSpec ConfigProofs SideModel FrameModel FloatOps F32Model F32Proofs SpecEncModel MdctFloat LtpfModel LtpfProofs FrontModel.
From Verif Require Import SynthModel EncModel EncSpec EncProofs EncShape EncExample P_Enc EncFinite.
From Verif Require LoopProofs FloatLaws TnsModel P_Tns.
Import ListNotations.
Local Open Scope Z_scope.

(** A binary32 that is neither an infinity nor a NaN, and its magnitude. *)
Definition finite_within (bound : R) (v : f32) : Prop := is_finite v = true /\ (Rabs (B2R v) <= bound)%R.

(** For every configuration and every sequence of calls whose samples are within twice the full
    scale (65536 in the unit of the 16-bit samples: all the values of the integer formats, and the
    floats of magnitude up to 2), all the coefficients that are given to the quantizer are finite,
    and no more than 2^118: neither the transform nor the two noise shapings overflow,
    whatever the history. *)
Theorem C47_finite nan lit junk junkd hr dt_us sr_hz sr_pcm_hz c n bypass calls :
  hr_setup_encoder hr dt_us sr_hz sr_pcm_hz = Some (Some (c, n)) ->
  Forall (ecall_ok dt_us (if sr_pcm_hz <=? 0 then sr_hz else sr_pcm_hz)) calls ->
  Forall (fun k : ecall => Forall (fun p => finite_within 65536 (snd p)) (snd (fst k))) calls ->
  let st := enc_init nan c n bypass in
  exists hs, shape_run nan lit junk junkd c bypass (y_front st) (y_mem st) calls = Some hs /\ length hs = length calls /\
    Forall (fun oh => match oh with Some h => Forall (finite_within (2 ^ 118)) (h_x h) | None => True end) hs.
Proof.
  intros Hs Hk Hz. cbv zeta. set (st := enc_init nan c n bypass). set (hz := if sr_pcm_hz <=? 0 then sr_hz else sr_pcm_hz) in *.
  destruct (C47_analysis nan lit junk junkd hr dt_us sr_hz sr_pcm_hz c n bypass calls Hs Hk) as (hs & Es & Ha). fold st in Es.
  exists hs. split; [exact Es|]. split; [clear - Ha; induction Ha; cbn [length]; congruence|].
  destruct (e_setup_geometry _ _ _ _ _ _ Hs) as (S1 & G). fold hz in G. pose proof G as (S2 & _ & _ & G1 & G2 & G3 & G4 & G5 & G6 & G7 & G8 & G9 & G10 & G11 & G12).
  assert (Lm : zlen (y_mem st) = n). { unfold st, enc_init, y_mem, zlen. rewrite repeat_length. lia. }
  assert (Exd : rdn (y_mem st) (e_xd c) (c_nd (e_dt c) (e_srp c)) = Some (repeat (f32_dy 0 0) (Z.to_nat (c_nd (e_dt c) (e_srp c))))).
  { apply rdn_at; [lia|unfold zlen; rewrite repeat_length; lia|lia|]. intros p Hp. unfold st, enc_init, y_mem in *. unfold zlen in Lm. rewrite repeat_length in Lm. transitivity (Some (f32_dy 0 0)); [apply LoopProofs.rd_repeat; lia|symmetry; apply LoopProofs.rd_repeat; lia]. }
  assert (Zd : Forall (pb 16) (repeat (f32_dy 0 0) (Z.to_nat (c_nd (e_dt c) (e_srp c))))).
  { apply Forall_forall. intros v Hv. apply repeat_spec in Hv. subst v. apply (F32Proofs.pb_le 0); [apply (F32Proofs.pb_dy 0 0 0); unfold FloatLaws.eok; lia|lia]. }
  assert (P16 : p2 16 = 65536%R) by (cbn; lra).
  eapply Forall_impl; [|refine (shape_run_pb nan lit junk junkd 16 hr dt_us hz c n bypass ltac:(lia) G calls (y_front st) (y_mem st) _ hs Lm Exd Zd Hk _ Es)].
  - intros [h|]; [|auto]. intros H. eapply Forall_impl; [|exact H]. intros v V. apply pb_iff in V. destruct V as (V1 & V2). split; [exact V1|]. change (16 + 102) with 118 in V2.
    replace (2 ^ 118)%R with (p2 118); [exact V2|]. change 118 with (Z.of_nat 118). rewrite bpow_powerRZ, <- pow_powerRZ. reflexivity.
  - eapply Forall_impl; [|exact Hz]. intros k K. eapply Forall_impl; [|exact K]. intros p (A & B). apply pb_iff. rewrite P16. split; assumption.
Qed.
Print Assumptions C47_finite.

(** The calls of [EncExample] (a triangle of amplitude 3000, with a size that is refused): the two
    spectra are there. *)
Example C47_finite_example :
  hr_setup_encoder false 2500 8000 0 = Some (Some (ex_enc, 55)) /\ Forall (ecall_ok 2500 8000) ex_calls /\
  Forall (fun k : ecall => Forall (fun p => finite_within 65536 (snd p)) (snd (fst k))) ex_calls /\
  exists h h', ex_shapes = Some [Some h; None; Some h'].
Proof.
  destruct C47_example as (A & B & h & h' & C & _). split; [exact A|]. split; [exact B|]. split; [|exists h, h'; exact C].
  assert (V : forall k, Forall (fun p : Z * f32 => finite_within 65536 (snd p)) (ex_pcm k)).
  { intros k. apply Forall_map, Forall_forall. intros i _. cbn [snd]. assert (W : Z.abs (ex_wave (20 * k + Z.of_nat i)) <= 2 ^ 16) by (unfold ex_wave; pose proof (Z.mod_pos_bound (20 * k + Z.of_nat i) 24 ltac:(lia)); destruct (_ <? 12); lia).
    pose proof (F32Proofs.pb_dy (ex_wave (20 * k + Z.of_nat i)) 0 16 ltac:(unfold FloatLaws.eok; lia) ltac:(lia) W) as P. apply pb_iff in P. destruct P as (P1 & P2). split; [exact P1|]. replace (p2 (16 - 0)) with 65536%R in P2 by (cbn; lra). exact P2. }
  unfold ex_calls. apply Forall_cons; [exact (V 0)|]. apply Forall_cons; [exact (V 5)|]. apply Forall_cons; [exact (V 1)|]. apply Forall_nil.
Qed.

(** The temporal noise shaping of the encoder, alone: each of the 8 stages of its filters doubles the
    spectrum at most, with the roundings; so a spectrum within 2^e (e up to 110) gives one within
    2^(e+8), without infinity or NaN, whatever the coefficients that the analysis chose. *)
Theorem C42_growth nan junk dt bw nn nbytes e x :
  P_Tns.frame_cfg dt bw -> P_Tns.filter_end dt bw <= zlen x -> (e <= 110)%nat -> Forall (finite_within (2 ^ e)) x ->
  exists d y, TnsModel.tns_analyze (f32_ops nan) junk dt bw nn nbytes x = Some (d, y) /\ zlen y = zlen x /\ Forall (finite_within (2 ^ (e + 8))) y.
Proof.
  intros C L He Hx. destruct (P_Tns.C42_analysis _ (f32_ops nan) junk dt bw nn nbytes x C L) as (d & y & E & _). exists d, y. split; [exact E|].
  apply P_Tns.frame_cfg_eq in C.
  assert (W : forall n v, finite_within (2 ^ n) v <-> pb (Z.of_nat n) v) by (intros n v; rewrite pb_iff; unfold finite_within; rewrite bpow_powerRZ, <- pow_powerRZ; reflexivity).
  destruct (tns_pb nan junk (Z.of_nat e) dt bw nn nbytes x d y) as (L' & P); [lia|exact C| |exact E|].
  - eapply Forall_impl; [|exact Hx]. intros v. apply W.
  - split; [exact L'|]. eapply Forall_impl; [|exact P]. intros v V. apply W. replace (Z.of_nat (e + 8)) with (Z.of_nat e + 8) by lia. exact V.
Qed.
Print Assumptions C42_growth.

(** A constant spectrum of 8 kHz in frames of 2.5 ms, within 2^7: it gets a filter. *)
Example C42_growth_example :
  let x := repeat (f32_dy 100 0) 20 in
  P_Tns.frame_cfg 0 0 /\ P_Tns.filter_end 0 0 <= zlen x /\ Forall (finite_within (2 ^ 7)) x /\
  match TnsModel.tns_analyze (f32_ops 0) (f32_dy 7 0) 0 0 false 20 x with Some (d, _) => existsb (fun q => 0 <? zlen q) (t_filters d) | None => false end = true.
Proof.
  cbv zeta. split; [vm_compute; intuition discriminate|]. split; [vm_compute; discriminate|]. split; [|vm_compute; reflexivity]. apply Forall_forall. intros v Hv. apply repeat_spec in Hv. subst v.
  destruct (dy_exact 100 0) as (D1 & D2); try lia. split; [exact D1|]. change (Rabs (val (f32_dy 100 0)) <= 2 ^ 7)%R. rewrite D2. cbn. rewrite Rabs_pos_eq; lra.
Qed.
