(** * C47: when the encoder turns the postfilter and the temporal noise shaping off *)
From Coq Require Import Reals ZArith List Bool Lia ZifyBool.
From Flocq Require Import Core.Core IEEE754.BinarySingleNaN.
From Verif Require Import Base BaseProofs ConfigModel ConfigSpec FloatModel SideModel SideSpec FrameModel FloatOps FloatLaws F32Model F32Proofs.
From Verif Require Import MdctModel MdctStream MdctFloat LtpfModel LtpfProofs FrontModel FrontRun BandModel BandProofs SnsModel SnsShape SnsMain SnsProject SnsFloat SnsGain TnsModel TnsProofs.
From Verif Require LoopProofs.
From Verif Require Import P_Tns P_Band P_Sns P_SnsGain SynthModel SynthProofs EncModel EncSpec EncProofs EncShape SpecEncModel EncExample.
Import ListNotations.
Local Open Scope Z_scope.

(** More energy in the last bands (2, 3, 4 or 2 of them) than 30 times the one of the others. *)
Definition near_nyquist (dt sr : Z) (e : list f32) : bool :=
  let h := num_bands dt sr - znth [2; 3; 4; 2] dt 0 in
  Bltb (Mul (f32_of_int 30) (fold_left Add (part e 0 h) (f32_of_int 0))) (fold_left Add (part e h (num_bands dt sr)) (f32_of_int 0)).

Lemma tns_off {F} (fl : fops F) junk dt bw nbytes x t y :
  tns_analyze fl junk dt bw true nbytes x = Some (t, y) -> Forall (fun q => q = []) (t_filters t).
Proof.
  assert (A : forall f p, tns_analyze_filter fl junk dt bw nbytes true x f = Some p -> fst p = []).
  { intros f p. unfold tns_analyze_filter. cbv zeta. destruct (autocorr _ _ _ _ _ _) as [r|]; [|intros Q; discriminate Q]. cbn [bind].
    destruct (levinson _ _ _) as [[a g]|]; [|intros Q; discriminate Q]. cbn [bind orb]. intros Q. assert (X : p = ([], repeat junk 8)) by congruence. rewrite X. reflexivity. }
  unfold tns_analyze. destruct (tns_analyze_filter fl junk dt bw nbytes true x 0) as [p0|] eqn:E0; [|intros Q; discriminate Q]. cbn [bind].
  destruct (Nat.eqb (tns_nfilters dt bw) 2).
  - destruct (tns_analyze_filter fl junk dt bw nbytes true x 1) as [p1|] eqn:E1; [|intros Q; discriminate Q]. cbn [bind].
    destruct (forward_filtering _ _ _ _ _) as [z|]; [|intros Q; discriminate Q]. cbn [bind]. intros Q. assert (X : t = mkTns (resolve_lpc_weighting dt nbytes) (map fst [p0; p1])) by congruence.
    rewrite X. cbn [t_filters map]. constructor; [eauto|]. constructor; [eauto|]. constructor.
  - cbn [bind]. destruct (forward_filtering _ _ _ _ _) as [z|]; [|intros Q; discriminate Q]. cbn [bind]. intros Q. assert (X : t = mkTns (resolve_lpc_weighting dt nbytes) (map fst [p0])) by congruence.
    rewrite X. cbn [t_filters map]. constructor; [eauto|]. constructor.
Qed.

(** For all configurations, states and samples: the frame keeps the pitch found by the time domain analysis;
    its postfilter is as this analysis decided, and off when bypassed or when the energies of
    the spectrum are close to the Nyquist frequency; in this last case no filter of the
    temporal noise shaping is used either. *)
Theorem C47_postfilter nan lit junk junkd hr dt_us sr_hz sr_pcm_hz c n bypass nbytes pcm fr mem h fr' mem' :
  hr_setup_encoder hr dt_us sr_hz sr_pcm_hz = Some (Some (c, n)) ->
  zlen mem = n -> zlen pcm = c_ns (e_dt c) (e_srp c) ->
  shape_frame nan lit junk junkd c bypass nbytes pcm fr mem = Some (h, fr', mem') ->
  exists att pp d over xd xd' xf e,
    temporal nan lit junkd (e_dt c) (e_srp c) bypass fr nbytes (map fst pcm) = Some ((att, pp, d, fr'), over) /\
    rdn mem (e_xd c) (c_nd (e_dt c) (e_srp c)) = Some xd /\
    forward nan junk (e_dt c) (e_srp c) (e_sr c) (map snd pcm) xd (map snd pcm) = Some (xd', xf) /\
    zlen e = num_bands (e_dt c) (e_sr c) /\
    (forall b lo hi, 0 <= b < num_bands (e_dt c) (e_sr c) -> FloatOps.rd (lim_of (e_dt c) (e_sr c)) b = Some lo -> FloatOps.rd (lim_of (e_dt c) (e_sr c)) (b + 1) = Some hi ->
       FloatOps.rd e b = Some (mean_square (f32_ops nan) (part xf lo hi))) /\
    h_pitch h = pp /\ l_pitch (h_ltpf h) = l_pitch d /\ h_over h = over /\
    (bypass = true -> l_active (h_ltpf h) = 0) /\
    (near_nyquist (e_dt c) (e_sr c) e = true -> l_active (h_ltpf h) = 0 /\ Forall (fun q => q = []) (t_filters (h_tns h))) /\
    (bypass = false -> near_nyquist (e_dt c) (e_sr c) e = false -> l_active (h_ltpf h) = l_active d).
Proof.
  intros Hs Lm Lp. destruct (e_setup_geometry _ _ _ _ _ _ Hs) as (_ & S1 & S2 & S3 & G1 & G2 & G3 & G4 & G5 & G6 & G7 & G8 & G9 & G10 & G11 & G12). clear Hs S1 S2 S3.
  unfold shape_frame. cbv zeta. set (dt := e_dt c) in *. set (sr := e_sr c) in *. set (srp := e_srp c) in *. clearbody dt sr srp.
  set (ns := c_ns dt srp) in *. set (nd := c_nd dt srp) in *.
  assert (L1 : zlen (map snd pcm) = ns) by (unfold zlen in *; rewrite map_length; exact Lp).
  destruct (put_at_ok mem (e_xs c) (map snd pcm)) as (m1 & -> & M1 & M2 & M3); [lia|lia|]. cbn [bind].
  destruct (temporal nan lit junkd dt srp bypass fr nbytes (map fst pcm)) as [[[[[att pp] d] fr1] over]|]; [|intros Q; discriminate Q]. cbn [bind].
  assert (0 <= ns) by lia.
  rewrite (rdn_at m1 (map snd pcm) (e_xs c) ns ltac:(lia) ltac:(lia) ltac:(lia) ltac:(intros p Hp; apply M3; lia)). cbn [bind].
  destruct (rdn_ok mem (e_xd c) nd ltac:(lia) ltac:(lia) ltac:(lia)) as (xd & Exd & _). destruct (rdn_inv _ _ _ _ Exd) as (Ld & Vd).
  rewrite (rdn_at m1 xd (e_xd c) nd ltac:(lia) Ld ltac:(lia) ltac:(intros p Hp; rewrite M2 by lia; apply Vd; lia)). cbn [bind].
  destruct (forward nan junk dt srp sr (map snd pcm) xd (map snd pcm)) as [[xd' xf]|] eqn:EF; [|intros Q; discriminate Q]. cbn [bind].
  assert (LF : zlen xd' = nd /\ zlen xf = ns).
  { unfold forward in EF. cbv zeta in EF. destruct (P_Mdct.C35_forward_accesses f32 (f_z (f32_ops nan) 0) (f_add (f32_ops nan)) (f_sub (f32_ops nan)) (f_mul (f32_ops nan)) (f_opp (f32_ops nan))
      (fun z => f_dy (f32_ops nan) z 80) (fun z => f_dy (f32_ops nan) z 47) dt srp (c_ns dt sr) (f_sqrt (f32_ops nan) (f_div (f32_ops nan) (f_z (f32_ops nan) (c_ns dt sr)) (f_z (f32_ops nan) ns))) (map snd pcm) xd (map snd pcm) (repeat junk (Z.to_nat MAX_NS)))
      as (d' & y' & E & A & B & _); fold ns nd; try lia; [exact G1|reflexivity|]. pose proof (eq_trans (eq_sym EF) E) as EE. assert (X : xd' = d' /\ xf = y') by (split; congruence). destruct X as (-> & ->). lia. }
  destruct LF as (Ld' & Lf).
  destruct (energy_ok (f32_ops nan) dt sr xf G2 ltac:(lia)) as (nn & e & -> & Le & He & Hnn). cbn [bind]. change (nn = near_nyquist dt sr e) in Hnn.
  destruct (bwdet_run (f32_ops nan) dt sr e) as [bw|]; [|intros Q; discriminate Q]. cbn [bind].
  destruct (sns_analyze (f32_ops nan) junk dt sr nbytes e att xf xf) as [[[sns scf] xf2]|]; [|intros Q; discriminate Q]. cbn [bind].
  destruct (tns_analyze (f32_ops nan) junk dt bw nn nbytes xf2) as [[tns y]|] eqn:ET; [|intros Q; discriminate Q]. cbn [bind].
  destruct (put_at m1 (e_xs c) y) as [m2|]; [|intros Q; discriminate Q]. cbn [bind].
  destruct (put_at m2 (e_xd c) xd') as [m3|]; [|intros Q; discriminate Q]. cbn [bind].
  intros Q. assert (X : h = mkShaped pp (if nn || bypass then ltpf_disable d else d) bw sns tns y over /\ fr' = fr1) by (split; congruence). destruct X as (-> & ->). cbn [h_pitch h_ltpf h_tns h_over].
  exists att, pp, d, over, xd, xd', xf, e. rewrite <- Hnn. repeat (split; [first [assumption|reflexivity]|]).
  split; [destruct (nn || bypass); reflexivity|]. split; [reflexivity|]. split; [intros ->; rewrite orb_true_r; reflexivity|]. split.
  - intros N. rewrite N in *. split; [reflexivity|]. exact (tns_off _ _ _ _ _ _ _ _ ET).
  - intros -> ->. reflexivity.
Qed.
Print Assumptions C47_postfilter.

(** 8 kHz, frames of 2.5 ms: the second frame of an alternate signal is near the Nyquist frequency and
    has no shaping filter; the second one of the triangle of [EncExample] is not and has one. *)
Definition alt_pcm : list (Z * f32) := map (fun i => let v := if Nat.even i then 3000 else -3000 in (v, f32_of_int v)) (seq 0 20).
Definition ex_second (pcm : list (Z * f32)) : option (bool * list (list Z)) :=
  let st := enc_init 0 ex_enc 55 false in
  do r <- shape_frame 0 ex_lit ex_junk (mkLtpf 7 7) ex_enc false 24 pcm (y_front st) (y_mem st);
  let '(_, fr, mem) := r in
  do r <- shape_frame 0 ex_lit ex_junk (mkLtpf 7 7) ex_enc false 24 pcm fr mem;
  let '(h, _, _) := r in
  do xd <- rdn mem (e_xd ex_enc) (c_nd 0 0);
  do m <- forward 0 ex_junk 0 0 0 (map snd pcm) xd (map snd pcm);
  do e <- energy_compute (f32_ops 0) 0 0 (snd m);
  Some (near_nyquist 0 0 (snd e), t_filters (h_tns h)).
Example C47_postfilter_example :
  hr_setup_encoder false 2500 8000 0 = Some (Some (ex_enc, 55)) /\ zlen (y_mem (enc_init 0 ex_enc 55 false)) = 55 /\ zlen alt_pcm = c_ns 0 0 /\
  ex_second alt_pcm = Some (true, [ [] ]) /\ ex_second (ex_pcm 0) = Some (false, [ [0; 3] ]).
Proof. do 4 (split; [vm_compute; reflexivity|]). vm_compute. reflexivity. Qed.
