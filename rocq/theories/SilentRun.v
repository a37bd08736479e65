(** * Null signals through the encoder, the frames and the decoder *)
From Coq Require Import Reals ZArith List Bool Lia Lra ZifyBool.
From Flocq Require Import Core.Core IEEE754.BinarySingleNaN.
From Verif Require Import Base BaseProofs BitsModel BitsAbstract ConfigModel ConfigSpec ConfigProofs FloatModel FloatProofs ResidualModel ResidualSpec SideModel SideSpec SpecModel SpecSpec FrameBase FrameModel FrameSpec FrameProofs SilenceProofs P_Frame.
From Verif Require Import BudgetModel GainModel GainProofs NoiseModel NoiseHoles P_Silence FloatOps FloatLaws F32Model F32Proofs MdctFloat SnsModel SnsProofs SnsMain SnsFloat LtpfModel TnsModel TnsProofs TnsZero FrontModel.
From Verif Require Import SpecEncModel SpecEncProofs SpecZero SynthModel SynthProofs SynthSpec EncModel EncSpec EncProofs EncShape.
Import ListNotations.
Local Open Scope Z_scope.

(** ** The frame of a null spectrum *)
Definition silent_frame (bw : Z) (tns : tns_data) (pitch : bool) (sns : sns_data) (l : ltpf_data) : FrameModel.frame :=
  mkFrame bw (mkSide 0 false 0) tns pitch sns l 7 [].

(** What the decoder gets: a null spectrum, no filter. *)
Definition silent_data (dt sr nbytes : Z) (d : decoded) : Prop :=
  bw_ok sr (d_bw d) /\ sns_ok (d_sns d) /\ (exists lpc, d_tns d = mkTns lpc (repeat [] (tns_nfilters dt (d_bw d)))) /\
  spec_finish dt sr nbytes d = Some (repeat 0 (Z.to_nat (c_ne dt sr))).

Lemma silent_written hw buf dt sr bw lpc pitch sns l : bytes buf -> 20 <= zlen buf <= 625 -> 0 <= dt <= 3 ->
  let tns := mkTns lpc (repeat [] (tns_nfilters dt bw)) in
  bw_ok sr bw -> tns_ok dt bw (zlen buf) tns -> sns_ok sns -> (pitch = true -> ltpf_ok l) ->
  let b := encode buf dt sr (silent_frame bw tns pitch sns l) in
  bytes b /\ zlen b = zlen buf /\ exists d, decode true hw b dt sr = Some d /\ silent_data dt sr (zlen buf) d.
Proof.
  intros Hb Hn Hd tns Hbw Htn Hsn Hlt b. set (f := silent_frame bw tns pitch sns l) in *.
  assert (Hf : Forall (fun c => c = []) (t_filters (f_tns f))) by (cbn; apply Forall_forall; intros v Hv; apply repeat_spec in Hv; exact Hv).
  pose proof Hbw as [Hs _]. destruct (band_in dt sr bw Hd Hbw) as [Bw0 Bw].
  assert (NE : 20 <= c_ne dt sr <= 960).
  { assert (D : forallb (fun dt => forallb (fun sr => (20 <=? c_ne dt sr) && (c_ne dt sr <=? 960)) [0;1;2;3;4;5;6]) [0;1;2;3] = true) by (vm_compute; reflexivity).
    rewrite forallb_forall in D. specialize (D dt ltac:(cbn [In]; lia)). cbv beta in D. rewrite forallb_forall in D. specialize (D sr ltac:(cbn [In]; lia)). cbv beta in D. lia. }
  assert (H : frame_ok dt sr (zlen buf) (at_least_two f)).
  { unfold frame_ok, at_least_two, f. cbn [f_bw f_side f_tns f_pitch f_sns FrameModel.f_ltpf f_nf f_x q_nq q_lsb q_gidx silent_frame].
    split; [exact Hbw|]. split; [unfold side_ok; cbn [q_nq q_gidx]; split; [exact Hd|]; split; [exact Hs|]; split; [lia|]; split; [reflexivity|lia]|].
    split; [exact Htn|]. split; [exact Hsn|]. split; [exact Hlt|]. split; [lia|]. split; [reflexivity|].
    assert (C : coded_f32 (is_hr sr) 0) by (destruct (is_hr sr); split; vm_compute; reflexivity).
    split; [constructor; [exact C|constructor; [exact C|constructor]]|].
    intros _. repeat constructor; vm_compute; discriminate. }
  assert (By : bytes b).
  { change (at_least_two f) with (two_zeros f) in H. pose proof (main_ops_ok _ _ _ _ H) as Hok. destruct (main_ops_zeros dt sr (zlen buf) f) as (m & Hm & Em). rewrite Em in Hok. apply Forall_app in Hok. destruct Hok as [Ho _].
    pose proof H as (_ & _ & Htn' & Hsn' & _).
    assert (HT : zlen (t_filters (f_tns (two_zeros f))) <= 2).
    { destruct Htn' as (_ & Hn' & _). unfold zlen. cbn [f_tns f_bw two_zeros] in *. rewrite Hn'. destruct ((1 <=? dt) && (3 <=? f_bw f)); cbn; lia. }
    destruct (plain_ops_bits dt sr (two_zeros f) Hd Hs Hf HT) as [P1 P2].
    unfold b, encode. rewrite (put_frame_plain _ dt sr (zlen buf) f eq_refl eq_refl Hsn).
    destruct (bits_only_frame buf _ Hb Ho P1 ltac:(lia)) as (W1 & W2 & W3 & W4). exact W4. }
  destruct (C24_empty_spectrum hw buf dt sr f Hb ltac:(lia) eq_refl eq_refl Hf H) as (C & L & d & E & S & Ex & Es). fold b in L, E.
  split; [exact By|]. split; [exact L|]. exists d. split; [exact E|].
  pose proof (C25_decode_any_bytes hw true b dt sr By Hd ltac:(lia)) as D25. unfold decode in E. destruct (get_frame true (r_setup hw b) dt sr (zlen b)) as [o r]. cbn [fst] in E. subst o.
  destruct D25 as (_ & _ & _ & _ & _ & D4 & _).
  destruct S as (S1 & S2 & S3 & _ & _ & S6). unfold at_least_two, f in S1, S2, S3, S6. cbn [f_bw f_side f_tns f_nf silent_frame q_nq q_lsb q_gidx] in S1, S2, S3, S6.
  split; [rewrite S1; exact Hbw|]. split; [exact D4|]. split; [exists lpc; rewrite S1, S3; reflexivity|].
  unfold spec_finish. rewrite Ex, S1, S2, S6. cbn [q_nq q_lsb q_gidx]. set (ne := Z.to_nat (c_ne dt sr)).
  pose proof (gain_offset_range sr (zlen buf) ltac:(lia) ltac:(lia)) as Ho.
  destruct (gain_float_range (0 - gain_offset sr (zlen buf)) ltac:(lia)) as (a & Ea & _). rewrite Ea. cbn [bind].
  assert (U : NoiseModel.unquantize dt sr (gain_float a) [0; 0] = repeat 0 ne).
  { unfold NoiseModel.unquantize. assert (F0 : fmul 0 (gain_float a) = 0) by reflexivity. cbn [map]. rewrite F0. change (zlen [0; 0]) with 2.
    unfold ne. replace (Z.to_nat (c_ne dt sr)) with (2 + Z.to_nat (c_ne dt sr - 2))%nat by lia. reflexivity. }
  rewrite U. unfold read.
  assert (I : forall k, k = 0 \/ k = 1 -> inb k (zlen (repeat 0 ne)) = true).
  { intros k Hk. unfold inb, zlen. rewrite repeat_length. unfold ne. lia. }
  rewrite (I 0), (I 1) by auto. cbn [bind]. rewrite !znth_repeat_0. reflexivity.
Qed.

(** ** The encoder *)
Lemma accepted_range c nb : tns_cfg (e_dt c) (e_sr c) -> accepted c nb = true -> 20 <= nb <= 625.
Proof.
  unfold accepted, tns_cfg. intros C H.
  assert (D : forallb (fun dt => forallb (fun sr => (is_hr sr && (dt =? DT_7M5)) || ((20 <=? min_frame_bytes dt sr) && (max_frame_bytes dt sr <=? 625))) [0;1;2;3;4;5;6]) [0;1;2;3] = true) by (vm_compute; reflexivity).
  rewrite forallb_forall in D. specialize (D (e_dt c) ltac:(cbn [In]; lia)). cbv beta in D. rewrite forallb_forall in D. specialize (D (e_sr c) ltac:(cbn [In]; lia)). cbv beta in D.
  unfold is_hr, SRATE_48K_HR in D. unfold SRATE_48K in C. lia.
Qed.

Section Run.
Context (nan : Z) (lit : Z -> f32) (junk : f32) (junkd : ltpf_data).

Definition null_call (k : ecall) : Prop := Forall (fun p => fst p = 0 /\ zero32 (snd p)) (snd (fst k)).

Lemma shape_run_zero hr dt_us srp_hz c n bypass : e_geometry hr dt_us srp_hz c n -> forall calls fr mem xd hs,
  zlen mem = n -> rdn mem (e_xd c) (c_nd (e_dt c) (e_srp c)) = Some xd -> Forall zero32 xd ->
  Forall (ecall_ok dt_us srp_hz) calls -> Forall null_call calls ->
  shape_run nan lit junk junkd c bypass fr mem calls = Some hs ->
  Forall2 (fun k oh => match oh with
    | Some h => Forall zero32 (h_x h) /\ exists lpc, h_tns h = mkTns lpc (repeat [] (tns_nfilters (e_dt c) (h_bw h)))
    | None => True
    end) calls hs.
Proof.
  intros G. induction calls as [|[[nb pcm] out] calls IH]; intros fr mem xd hs Lm Exd Zd Hk Hz Es; cbn [shape_run] in Es.
  - assert (hs = []) by congruence. subst. constructor.
  - inversion Hk as [|? ? K1 K2]. inversion Hz as [|? ? Z1 Z2]. subst. destruct (accepted c nb) eqn:A.
    + destruct (shape_frame nan lit junk junkd c bypass nb pcm fr mem) as [[[h fr1] mem1]|] eqn:E1; [|discriminate Es]. cbn [bind] in Es.
      destruct (shape_run nan lit junk junkd c bypass fr1 mem1 calls) as [hs'|] eqn:E2; [|discriminate Es]. cbn [bind] in Es.
      assert (hs = Some h :: hs') by congruence. subst hs. destruct K1 as (K1 & _). pose proof G as (_ & _ & _ & _ & _ & _ & _ & _ & _ & G7 & _).
      destruct (shape_zero nan lit junk junkd hr dt_us srp_hz c (zlen mem) bypass nb pcm fr mem xd h fr1 mem1 G eq_refl ltac:(lia) Exd Zd) as (P1 & P2 & P3 & xd' & P4 & P5); [|exact E1|].
      { unfold null_call in Z1. cbn [fst snd] in Z1. eapply Forall_impl; [|exact Z1]. intros p (_ & Hp). exact Hp. }
      constructor; [|exact (IH fr1 mem1 xd' hs' P3 P4 P5 K2 Z2 E2)]. split; [exact P1|]. eexists. exact P2.
    + destruct (shape_run nan lit junk junkd c bypass fr mem calls) as [hs'|] eqn:E2; [|discriminate Es]. cbn [bind] in Es.
      assert (hs = None :: hs') by congruence. subst hs. constructor; [exact I|exact (IH fr mem xd hs' eq_refl Exd Zd K2 Z2 E2)].
Qed.

Definition silent_return (c : enc_cfg) (k : ecall) (r : Z * list Z * bool) : Prop :=
  if accepted c (fst (fst k)) then
    exists b, fst r = (0, b) /\ bytes b /\ zlen b = fst (fst k) /\
      forall hw, exists d, decode true hw b (e_dt c) (e_sr c) = Some d /\ silent_data (e_dt c) (e_sr c) (fst (fst k)) d
  else r = (-1, snd k, false).

Lemma encode_run_zero hr dt_us srp_hz c n bypass : e_geometry hr dt_us srp_hz c n -> forall calls fr mem sp hs,
  shape_run nan lit junk junkd c bypass fr mem calls = Some hs -> spec_ok sp -> Forall (ecall_ok dt_us srp_hz) calls ->
  Forall2 (fun k oh => match oh with
      | Some h => accepted c (fst (fst k)) = true /\ side_codable (e_dt c) (e_sr c) (fst (fst k)) h /\ zlen (h_x h) = c_ns (e_dt c) (e_srp c) /\
          h_over h = false /\ Forall zero32 (h_x h) /\ exists lpc, h_tns h = mkTns lpc (repeat [] (tns_nfilters (e_dt c) (h_bw h)))
      | None => accepted c (fst (fst k)) = false
      end) calls hs ->
  exists outs st', encode_run nan lit junk junkd (mkEncF c bypass fr sp mem) calls = Some (outs, st') /\
    Forall2 (fun k r => silent_return c k r /\ snd r = false) calls outs.
Proof.
  intros G. induction calls as [|[[nb pcm] out] calls IH]; intros fr mem sp hs Es Hsp Hc Hk.
  - cbn [encode_run]. eexists _, _. split; [reflexivity|]. constructor.
  - inversion Hk as [|? oh ? hs1 K1 K2]. inversion Hc as [|? ? C1 C2]. subst. cbn [encode_run]. unfold lc3_encode. cbn [y_cfg y_bypass y_front y_mem y_spec].
    assert (EA : (nb <? min_frame_bytes (e_dt c) (e_sr c)) || (max_frame_bytes (e_dt c) (e_sr c) <? nb) = negb (accepted c nb)) by (unfold accepted; lia).
    rewrite EA. cbn [shape_run] in Es. destruct (accepted c nb) eqn:A; cbn [negb].
    + destruct (shape_frame nan lit junk junkd c bypass nb pcm fr mem) as [[[h fr1] mem1]|] eqn:E1; [|discriminate Es]. cbn [bind] in Es |- *.
      destruct (shape_run nan lit junk junkd c bypass fr1 mem1 calls) as [hs'|] eqn:E2; [|discriminate Es]. cbn [bind] in Es.
      assert (X : oh = Some h /\ hs1 = hs') by (split; congruence). destruct X as (-> & ->). cbn [fst] in K1. destruct K1 as (_ & (B1 & B2 & B3 & B4) & K4 & K5 & K6 & lpc & K7).
      pose proof G as (_ & _ & _ & _ & G2 & _ & G4 & G5 & _). assert (Hd : 0 <= e_dt c <= 3) by (destruct G2; lia).
      pose proof (accepted_range c nb G2 A) as Hn. destruct C1 as (_ & _ & Lo & Bo).
      unfold write_frame. cbv zeta.
      assert (Er : rdn (h_x h) 0 (c_ne (e_dt c) (e_sr c)) = Some (firstn (Z.to_nat (c_ne (e_dt c) (e_sr c))) (h_x h))).
      { unfold rdn. destruct (_ && _) eqn:E; [reflexivity|lia]. }
      rewrite Er. cbn [bind]. set (x := firstn _ (h_x h)) in *.
      assert (Lx0 : zlen x = c_ne (e_dt c) (e_sr c)) by (unfold x, zlen in *; rewrite firstn_length; lia).
      assert (Zx : Forall zero32 x). { unfold x. apply Forall_forall. intros v Hv. rewrite Forall_forall in K6. apply K6. rewrite <- (firstn_skipn (Z.to_nat (c_ne (e_dt c) (e_sr c))) (h_x h)). apply in_or_app. left. exact Hv. }
      assert (Ft : Forall (fun c : list Z => c = []) (t_filters (h_tns h))) by (rewrite K7; cbn [t_filters]; apply Forall_forall; intros v Hv; apply repeat_spec in Hv; exact Hv).
      destruct (spectrum_zero nan (e_dt c) (e_sr c) (h_bw h) nb (h_pitch h) (h_tns h) sp x Hd B1 Hn B3 Ft Hsp Lx0 Zx) as (sp' & -> & Hsp'). cbn [bind].
      destruct (IH fr1 mem1 sp' hs' E2 Hsp' C2 K2) as (outs & st' & -> & P1). cbn [bind fst snd].
      eexists _, st'. split; [reflexivity|]. constructor; [|exact P1]. split; [|exact K5]. unfold silent_return. cbn [fst snd]. rewrite A. rewrite K7 in B3 |- *. 
      eexists. split; [reflexivity|].
      assert (W := fun hw => silent_written hw out (e_dt c) (e_sr c) (h_bw h) lpc (h_pitch h) (h_sns h) (h_ltpf h) Bo). rewrite Lo in W. specialize (fun hw => W hw Hn Hd B1 B3 B2 B4). cbv zeta in W.
      destruct (W (fun v => v)) as (W1 & W2 & _). split; [exact W1|]. split; [exact W2|]. intros hw. destruct (W hw) as (_ & _ & W3). exact W3.
    + destruct (shape_run nan lit junk junkd c bypass fr mem calls) as [hs'|] eqn:E2; [|discriminate Es]. cbn [bind] in Es |- *.
      assert (X : oh = None /\ hs1 = hs') by (split; congruence). destruct X as (-> & ->).
      destruct (IH fr mem sp hs' E2 Hsp C2 K2) as (outs & st' & -> & P1). cbn [bind fst snd].
      eexists _, st'. split; [reflexivity|]. constructor; [|exact P1]. split; [|reflexivity]. unfold silent_return. cbn [fst snd]. rewrite A. reflexivity.
Qed.
End Run.
