(** * The encoder: no access out of range and codable data, whatever the calls *)
From Coq Require Import Reals ZArith List Bool Lia ZifyBool.
From Verif Require Import Base BaseProofs ConfigModel ConfigSpec ConfigProofs FloatModel SideModel SideSpec FrameModel FrameSpec FloatOps F32Model.
From Verif Require Import MdctModel MdctWindows MdctStream LtpfModel LtpfProofs FrontModel FrontPitch FrontRun BandModel SnsModel SnsShape SnsMain SnsProject TnsModel TnsProofs.
From Verif Require LoopProofs.
From Verif Require Import P_Mdct P_Ltpf P_Front P_Tns P_Band P_Sns SynthModel SynthProofs SpecEncModel EncModel EncSpec.
Import ListNotations.
Local Open Scope Z_scope.

Definition e_geometry (hr : bool) (dt_us srp_hz : Z) (c : enc_cfg) (n : Z) : Prop :=
  let dt := e_dt c in let sr := e_sr c in let srp := e_srp c in
  supported hr dt_us srp_hz /\ dt = resolve_dt dt_us hr /\ srp = resolve_srate srp_hz hr /\
  has_transform dt srp /\ tns_cfg dt sr /\ 0 <= sr <= srp /\ 0 < c_ne dt sr /\ c_ne dt sr <= c_ns dt sr <= c_ns dt srp /\ c_ns dt sr mod 4 = 0 /\
  c_ns dt srp = samples dt_us srp_hz /\ 0 <= c_nd dt srp /\ is_hr sr = hr /\
  0 <= e_xs c /\ e_xs c + c_ns dt srp <= e_xd c /\ e_xd c + c_nd dt srp <= n.

Lemma e_setup_geometry hr dt_us sr_hz sr_pcm_hz c n :
  hr_setup_encoder hr dt_us sr_hz sr_pcm_hz = Some (Some (c, n)) ->
  let srp_hz := if sr_pcm_hz <=? 0 then sr_hz else sr_pcm_hz in
  supported hr dt_us sr_hz /\ e_geometry hr dt_us srp_hz c n.
Proof.
  intros H srp_hz. pose proof H as H0. unfold hr_setup_encoder in H0. cbv zeta in H0. fold srp_hz in H0.
  destruct (_ || _ || _) eqn:E in H0; [discriminate|]. apply setup_guard in E. destruct E as (S1 & S2 & L).
  destruct (setup_encoder_ok hr dt_us sr_hz sr_pcm_hz) as (c' & n' & E & _ & Y); [exact S1|exact S2|exact L|].
  rewrite H in E. injection E as <- <-. split; [exact S1|].
  destruct (enc_buffer_count _ _) in H0; [|discriminate]. injection H0 as <- _. unfold enc_layout_ok in Y. unfold e_geometry. cbn [e_dt e_sr e_srp e_xs e_xd e_xt] in *.
  assert (G : let dt := resolve_dt dt_us hr in let sr := resolve_srate sr_hz hr in let srp := resolve_srate srp_hz hr in
    has_transform dt srp /\ tns_cfg dt sr /\ 0 <= sr <= srp /\ 0 < c_ne dt sr /\ c_ne dt sr <= c_ns dt sr <= c_ns dt srp /\ c_ns dt sr mod 4 = 0 /\
    c_ns dt srp = samples dt_us srp_hz /\ 0 <= c_nd dt srp /\ is_hr sr = hr).
  { clear - S1 S2 L. cbv zeta. clearbody srp_hz.
    assert (M : samples dt_us sr_hz <= samples dt_us srp_hz).
    { unfold samples. apply Z.div_le_mono; [lia|]. apply Z.mul_le_mono_nonneg_l; [|exact L]. destruct S1 as [D _]. unfold supported_dt in D. lia. }
    pose proof (resolve_srate_le hr sr_hz srp_hz (proj2 S1) (proj2 S2)) as Q.
    assert (Q' : resolve_srate sr_hz hr <= resolve_srate srp_hz hr) by (apply Z.ltb_ge; rewrite Q; apply Z.ltb_ge; lia).
    assert (A : let dt := resolve_dt dt_us hr in let sr := resolve_srate sr_hz hr in
      tns_cfg dt sr /\ 0 <= sr /\ 0 < c_ne dt sr /\ c_ne dt sr <= c_ns dt sr /\ c_ns dt sr mod 4 = 0 /\ c_ns dt sr = samples dt_us sr_hz /\ is_hr sr = hr)
      by (clear - S1; supported_case S1; cbv; intuition congruence).
    assert (B : let dt := resolve_dt dt_us hr in let srp := resolve_srate srp_hz hr in
      has_transform dt srp /\ c_ns dt srp = samples dt_us srp_hz /\ 0 <= c_nd dt srp)
      by (clear - S2; supported_case S2; cbv; intuition congruence).
    cbv zeta in A, B. intuition lia. }
  cbv zeta in G. destruct G as (G1 & G2 & G3 & G4 & G5 & G6 & G7 & G8 & G9).
  split; [exact S2|]. split; [reflexivity|]. split; [reflexivity|].
  split; [exact G1|]. split; [exact G2|]. split; [exact G3|]. split; [exact G4|]. split; [exact G5|]. split; [exact G6|]. split; [exact G7|]. split; [exact G8|]. split; [exact G9|].
  clear - Y. lia.
Qed.

Lemma tns_end_ne dt sr bw : tns_cfg dt sr -> bw_ok sr bw -> tns_cfg dt bw /\ tns_end dt bw <= c_ne dt sr.
Proof.
  intros C (Hs & Hb).
  assert (B : 0 <= bw <= sr) by (destruct (is_hr sr); lia).
  split; [unfold tns_cfg in *; lia|]. unfold tns_end, c_ne, SRATE_48K. destruct C as (C1 & C2 & _). apply Z.mul_le_mono_nonneg_r; [lia|].
  assert (S7 : sr = 0 \/ sr = 1 \/ sr = 2 \/ sr = 3 \/ sr = 4 \/ sr = 5 \/ sr = 6) by lia.
  assert (B7 : bw = 0 \/ bw = 1 \/ bw = 2 \/ bw = 3 \/ bw = 4 \/ bw = 5 \/ bw = 6) by lia.
  clear - S7 B7 B. destruct S7 as [-> | [-> | [-> | [-> | [-> | [-> | ->]]]]]]; destruct B7 as [-> | [-> | [-> | [-> | [-> | [-> | ->]]]]]]; try lia; vm_compute; discriminate.
Qed.

Lemma Forall2_mono_ {A B} (P Q : A -> B -> Prop) l l' : (forall a b, P a b -> Q a b) -> Forall2 P l l' -> Forall2 Q l l'.
Proof. intros H. induction 1; constructor; auto. Qed.

Section Frames.
Context (nan : Z) (lit : Z -> f32) (junk : f32) (junkd : ltpf_data).

(** ** The analysis up to the shaped spectrum *)
Lemma shape_frame_ok hr dt_us srp_hz c n bypass nbytes pcm fr mem att pp d fr' over :
  e_geometry hr dt_us srp_hz c n -> zlen mem = n -> zlen pcm = c_ns (e_dt c) (e_srp c) ->
  temporal nan lit junkd (e_dt c) (e_srp c) bypass fr nbytes (map fst pcm) = Some ((att, pp, d, fr'), over) ->
  (pp = true -> (l_active d = 0 \/ l_active d = 1) /\ 0 <= l_pitch d < 512) ->
  exists h mem', shape_frame nan lit junk junkd c bypass nbytes pcm fr mem = Some (h, fr', mem') /\ zlen mem' = n /\
    side_codable (e_dt c) (e_sr c) nbytes h /\ zlen (h_x h) = c_ns (e_dt c) (e_srp c) /\ h_over h = over /\ h_pitch h = pp.
Proof.
  intros (S1 & S2 & S3 & G1 & G2 & G3 & G4 & G5 & G6 & G7 & G8 & G9 & G10 & G11 & G12) Lm Lp ET Hd.
  unfold shape_frame. cbv zeta. set (dt := e_dt c) in *. set (sr := e_sr c) in *. set (srp := e_srp c) in *. clearbody dt sr srp.
  set (ns := c_ns dt srp) in *. set (nd := c_nd dt srp) in *.
  assert (L1 : zlen (map snd pcm) = ns) by (unfold zlen in *; rewrite map_length; exact Lp).
  destruct (put_at_ok mem (e_xs c) (map snd pcm)) as (m1 & -> & M1 & _); [lia|lia|]. cbn [bind]. rewrite ET. cbn [bind].
  assert (0 <= ns) by lia.
  destruct (rdn_ok m1 (e_xs c) ns) as (xs & -> & Lx & _); [lia|lia|lia|]. cbn [bind].
  destruct (rdn_ok m1 (e_xd c) nd) as (xd & -> & Ld & _); [lia|lia|lia|]. cbn [bind].
  assert (EF : exists d' y', forward nan junk dt srp sr xs xd xs = Some (d', y') /\ zlen d' = zlen xd /\ zlen y' = zlen xs).
  { unfold forward. cbv zeta. destruct (C35_forward_accesses f32 (f_z (f32_ops nan) 0) (f_add (f32_ops nan)) (f_sub (f32_ops nan)) (f_mul (f32_ops nan)) (f_opp (f32_ops nan))
      (fun z => f_dy (f32_ops nan) z 80) (fun z => f_dy (f32_ops nan) z 47) dt srp (c_ns dt sr) (f_sqrt (f32_ops nan) (f_div (f32_ops nan) (f_z (f32_ops nan) (c_ns dt sr)) (f_z (f32_ops nan) ns))) xs xd xs (repeat junk (Z.to_nat MAX_NS)))
      as (d' & y' & E & A & B & _); fold ns nd; try lia; [exact G1|reflexivity|]. exists d', y'. auto. }
  destruct EF as (xd' & xf & -> & Ld' & Lf). cbn [bind].
  assert (C : P_Tns.frame_cfg dt sr) by (apply frame_cfg_eq; exact G2).
  destruct (C43_energies f32 (f32_ops nan) dt sr xf C ltac:(lia)) as (nn & e & -> & Le & _). cbn [bind].
  destruct (C43_bandwidth_codable f32 (f32_ops nan) dt sr e C Le) as (bw & -> & Hbw). cbn [bind].
  destruct (sns_analyze_ok (f32_ops nan) junk dt sr nbytes e att xf xf G2 Le ltac:(lia) ltac:(lia) (f32_analysis_ok nan junk dt sr nbytes e att G2 Le)) as (sns & scf & xf2 & -> & Hsns & _ & Lscf & Esh). cbn [bind].
  assert (Lf2 : zlen xf2 = zlen xf).
  { destruct (spectral_shaping_ok (f32_ops nan) junk dt sr scf (fun i => match FloatOps.rd scf i with Some v => v | None => junk end) false xf xf G2) as (y' & E' & L' & _); try lia.
    - intros i Hi. destruct (LoopProofs.rd_ok scf i ltac:(lia)) as (v & V). rewrite V. reflexivity.
    - rewrite Esh in E'. injection E' as <-. exact L'. }
  destruct (tns_end_ne dt sr bw G2 Hbw) as (Cb & Te).
  destruct (C42_analysis f32 (f32_ops nan) junk dt bw nn nbytes xf2) as (tns & y & -> & Htns & _ & Ly & _); [apply frame_cfg_eq; exact Cb|rewrite filter_end_eq by (apply frame_cfg_eq; exact Cb); lia|]. cbn [bind].
  destruct (put_at_ok m1 (e_xs c) y) as (m2 & -> & M2 & _); [lia|lia|]. cbn [bind].
  destruct (put_at_ok m2 (e_xd c) xd') as (m3 & -> & M3 & _); [lia|lia|]. cbn [bind].
  eexists _, m3. split; [reflexivity|]. split; [lia|]. unfold side_codable. cbn [h_bw h_sns h_tns h_pitch h_ltpf h_x h_over].
  split; [|repeat split; lia]. split; [exact Hbw|]. split; [exact Hsns|]. split; [exact Htns|].
  intros P. destruct (Hd P) as (D1 & D2). destruct (nn || bypass); unfold ltpf_ok, ltpf_disable; cbn [l_active l_pitch]; auto.
Qed.

(** ** Successive calls *)
Notation frun c bypass := (front_run (f_z (f32_ops nan) 0) (f_add (f32_ops nan)) (f_sub (f32_ops nan)) (f_mul (f32_ops nan)) (f_div (f32_ops nan)) (f_sqrt (f32_ops nan))
  (f_lt (f32_ops nan)) (f_le (f32_ops nan)) (f_z (f32_ops nan)) lit (e_dt c) (e_srp c) bypass).

Fixpoint fcalls (c : enc_cfg) (calls : list ecall) : list (call * ltpf_data) :=
  match calls with
  | [] => []
  | (nbytes, pcm, _) :: calls => if accepted c nbytes then (mkCall nbytes (map fst pcm), junkd) :: fcalls c calls else fcalls c calls
  end.
Lemma fcalls_ok c dt_us srp_hz calls : Forall (ecall_ok dt_us srp_hz) calls -> Forall (call_ok dt_us srp_hz) (fcalls c calls).
Proof.
  induction 1 as [|[[nb pcm] out] calls (H1 & H2 & _) _ IH]; cbn [fcalls]; [constructor|]. destruct (accepted c nb); [|exact IH].
  constructor; [|exact IH]. split; cbn [fst k_pcm]; [unfold zlen in *; rewrite map_length; exact H1|].
  apply Forall_map. exact H2.
Qed.

Lemma shape_run_ok hr dt_us srp_hz c n bypass : e_geometry hr dt_us srp_hz c n -> forall calls fr mem outs st o,
  zlen mem = n -> Forall (ecall_ok dt_us srp_hz) calls ->
  frun c bypass fr (fcalls c calls) = Some (outs, st, o) -> Forall2 (fun k r => out_ok bypass hr (snd k) r) (fcalls c calls) outs ->
  exists hs, shape_run nan lit junk junkd c bypass fr mem calls = Some hs /\
    Forall2 (fun k oh => match oh with
      | Some h => accepted c (fst (fst k)) = true /\ side_codable (e_dt c) (e_sr c) (fst (fst k)) h /\ zlen (h_x h) = c_ns (e_dt c) (e_srp c) /\
                  (o = false -> h_over h = false) /\ (bypass = true -> h_pitch h = false)
      | None => accepted c (fst (fst k)) = false
      end) calls hs.
Proof.
  intros G. induction calls as [|[[nb pcm] out] calls IH]; intros fr mem outs st o Lm Hk Er Ho.
  - exists []. split; [reflexivity|constructor].
  - inversion Hk as [|? ? K1 K2]. subst. cbn [fcalls] in Er, Ho. cbn [shape_run]. destruct (accepted c nb) eqn:A.
    + cbn [front_run] in Er. unfold bindm in Er at 1.
      match type of Er with match ?m with _ => _ end = _ => destruct m as [[[[[att pp] d] fr1] o1]|] eqn:ET; [|discriminate] end.
      unfold bindm in Er at 1. match type of Er with match match ?m with _ => _ end with _ => _ end = _ => destruct m as [[[outs1 st1] o2]|] eqn:E2; [|discriminate] end.
      unfold ret in Er. cbn [fst snd] in Er. rewrite orb_false_r in Er.
      assert (X : outs = mkOut att pp d (n_pitch (FrontModel.f_ltpf fr1)) :: outs1 /\ o = o1 || o2) by (split; congruence). destruct X as (-> & ->).
      inversion Ho as [|? ? ? ? O1 O2]. subst. cbn [snd] in O1.
      assert (GG := G). destruct GG as (_ & _ & _ & _ & _ & _ & _ & _ & _ & G7 & _). destruct K1 as (K1 & K1b & _).
      destruct (shape_frame_ok hr dt_us srp_hz c (zlen mem) bypass nb pcm fr mem att pp d fr1 o1 G eq_refl ltac:(lia) ET) as (h & mem' & Eh & Lm' & Hc & Lx & Hov & Hp).
      { intros ->. destruct bypass; cbn [out_ok o_present o_data o_pitch] in O1; [destruct O1; discriminate|]. destruct O1 as (O1 & O3).
        split; [tauto|]. destruct (O3 eq_refl) as (e & f & Hf & E). pose proof Hf as (F1 & F2 & F3 & F4 & F5).
        pose proof (C27_round_trip e f F1 F2 F3 F4 F5) as RT. rewrite <- E in RT. tauto. }
      rewrite Eh. cbn [bind]. destruct (IH fr1 mem' outs1 st1 o2 Lm' K2 E2 O2) as (hs & -> & Hhs). cbn [bind].
      eexists. split; [reflexivity|]. constructor.
      * cbn [fst]. split; [exact A|]. split; [exact Hc|]. split; [exact Lx|]. split; [intros Z0; apply orb_false_elim in Z0; destruct Z0; congruence|].
        intros ->. cbn [out_ok o_present] in O1. destruct O1. congruence.
      * eapply (Forall2_mono_); [|exact Hhs]. intros k oh. destruct oh; [|auto]. intros (Q1 & Q2 & Q3 & Q4 & Q5). repeat (split; [assumption|]).
        split; [|assumption]. intros Z0; apply orb_false_elim in Z0; destruct Z0; auto.
    + destruct (IH fr mem outs st o eq_refl K2 Er Ho) as (hs & -> & Hhs). cbn [bind]. eexists. split; [reflexivity|]. constructor; [exact A|exact Hhs].
Qed.
End Frames.
