(** * The values of the shaped spectrum: null signals *)
From Coq Require Import Reals ZArith List Bool Lia ZifyBool.
From Flocq Require Import Core.Core IEEE754.BinarySingleNaN.
From Verif Require Import Base BaseProofs ConfigModel ConfigSpec FloatModel SideModel SideSpec FrameModel FloatOps FloatLaws F32Model F32Proofs.
From Verif Require Import MdctModel MdctStream MdctFloat LtpfModel LtpfProofs FrontModel FrontRun BandModel BandProofs SnsModel SnsShape SnsMain SnsProject SnsFloat SnsGain TnsModel TnsProofs TnsZero.
From Verif Require LoopProofs.
From Verif Require Import P_Tns P_Band P_Sns P_SnsGain SynthModel SynthProofs EncModel EncSpec EncProofs.
Import ListNotations.
Local Open Scope Z_scope.

Lemma rdn_at {F} (m l : list F) o k : 0 <= o -> k = zlen l -> o + k <= zlen m -> (forall p, o <= p < o + k -> LtpfModel.rd m p = LtpfModel.rd l (p - o)) -> rdn m o k = Some l.
Proof.
  intros H0 -> H1 V. pose proof (zlen_nonneg l). destruct (rdn_ok m o (zlen l) H0 ltac:(lia) H1) as (v & -> & L & W). f_equal. apply LtpfProofs.rd_ext; [exact L|].
  intros i Hi. rewrite W by lia. rewrite V by lia. f_equal. lia.
Qed.
Lemma rdn_inv {F} (m l : list F) o k : rdn m o k = Some l -> k = zlen l /\ forall p, o <= p < o + k -> LtpfModel.rd m p = LtpfModel.rd l (p - o).
Proof. intros E. destruct (rdn_some _ _ _ _ E) as [L V]. split; [lia|]. intros p Hp. rewrite V by lia. f_equal. lia. Qed.

Section Shape.
Context (nan : Z) (lit : Z -> f32) (junk : f32) (junkd : ltpf_data).
Let fl := f32_ops nan.

(** ** The steps of the analysis *)
Lemma shape_frame_parts hr dt_us srp_hz c n bypass nbytes pcm fr mem xd h fr' mem' :
  e_geometry hr dt_us srp_hz c n -> zlen mem = n -> zlen pcm = c_ns (e_dt c) (e_srp c) ->
  rdn mem (e_xd c) (c_nd (e_dt c) (e_srp c)) = Some xd ->
  shape_frame nan lit junk junkd c bypass nbytes pcm fr mem = Some (h, fr', mem') ->
  exists xd' xf scf xf2 nn,
    forward nan junk (e_dt c) (e_srp c) (e_sr c) (map snd pcm) xd (map snd pcm) = Some (xd', xf) /\ zlen xd' = c_nd (e_dt c) (e_srp c) /\ zlen xf = c_ns (e_dt c) (e_srp c) /\
    sns_ok (h_sns h) /\ decoded_scf fl (h_sns h) = Some scf /\ zlen scf = 16 /\ spectral_shaping fl junk (e_dt c) (e_sr c) scf false xf xf = Some xf2 /\
    bw_ok (e_sr c) (h_bw h) /\ tns_analyze fl junk (e_dt c) (h_bw h) nn nbytes xf2 = Some (h_tns h, h_x h) /\
    zlen mem' = n /\ rdn mem' (e_xd c) (c_nd (e_dt c) (e_srp c)) = Some xd'.
Proof.
  intros (S1 & S2 & S3 & G1 & G2 & G3 & G4 & G5 & G6 & G7 & G8 & G9 & G10 & G11 & G12) Lm Lp Exd.
  unfold shape_frame. cbv zeta. set (dt := e_dt c) in *. set (sr := e_sr c) in *. set (srp := e_srp c) in *. clearbody dt sr srp.
  set (ns := c_ns dt srp) in *. set (nd := c_nd dt srp) in *.
  assert (L1 : zlen (map snd pcm) = ns) by (unfold zlen in *; rewrite map_length; exact Lp).
  destruct (put_at_ok mem (e_xs c) (map snd pcm)) as (m1 & -> & M1 & M2 & M3); [lia|lia|]. cbn [bind].
  destruct (temporal nan lit junkd dt srp bypass fr nbytes (map fst pcm)) as [[[[[att pp] d] fr1] over]|]; [|intros Q; discriminate Q]. cbn [bind].
  assert (0 <= ns) by lia.
  rewrite (rdn_at m1 (map snd pcm) (e_xs c) ns ltac:(lia) ltac:(lia) ltac:(lia) ltac:(intros p Hp; apply M3; lia)). cbn [bind].
  destruct (rdn_inv _ _ _ _ Exd) as (Ld & Vd).
  rewrite (rdn_at m1 xd (e_xd c) nd ltac:(lia) Ld ltac:(lia) ltac:(intros p Hp; rewrite M2 by lia; apply Vd; lia)). cbn [bind].
  destruct (forward nan junk dt srp sr (map snd pcm) xd (map snd pcm)) as [[xd' xf]|] eqn:EF; [|intros Q; discriminate Q]. cbn [bind].
  assert (LF : zlen xd' = nd /\ zlen xf = ns).
  { unfold forward in EF. cbv zeta in EF. destruct (P_Mdct.C35_forward_accesses f32 (f_z (f32_ops nan) 0) (f_add (f32_ops nan)) (f_sub (f32_ops nan)) (f_mul (f32_ops nan)) (f_opp (f32_ops nan))
      (fun z => f_dy (f32_ops nan) z 80) (fun z => f_dy (f32_ops nan) z 47) dt srp (c_ns dt sr) (f_sqrt (f32_ops nan) (f_div (f32_ops nan) (f_z (f32_ops nan) (c_ns dt sr)) (f_z (f32_ops nan) ns))) (map snd pcm) xd (map snd pcm) (repeat junk (Z.to_nat MAX_NS)))
      as (d' & y' & E & A & B & _); fold ns nd; try lia; [exact G1|reflexivity|]. pose proof (eq_trans (eq_sym EF) E) as EE. assert (X : xd' = d' /\ xf = y') by (split; congruence). destruct X as (-> & ->). lia. }
  destruct LF as (Ld' & Lf).
  assert (C : P_Tns.frame_cfg dt sr) by (apply frame_cfg_eq; exact G2).
  destruct (C43_energies f32 (f32_ops nan) dt sr xf C ltac:(lia)) as (nn & e & -> & Le & _). cbn [bind].
  destruct (C43_bandwidth_codable f32 (f32_ops nan) dt sr e C Le) as (bw & -> & Hbw). cbn [bind].
  destruct (sns_analyze_ok (f32_ops nan) junk dt sr nbytes e att xf xf G2 Le ltac:(lia) ltac:(lia) (f32_analysis_ok nan junk dt sr nbytes e att G2 Le)) as (sns & scf & xf2 & -> & Hsns & Dscf & Lscf & Esh). cbn [bind].
  assert (Lf2 : zlen xf2 = zlen xf).
  { destruct (spectral_shaping_ok (f32_ops nan) junk dt sr scf (fun i => match FloatOps.rd scf i with Some v => v | None => junk end) false xf xf G2) as (y' & E' & L' & _); try lia.
    - intros i Hi. destruct (LoopProofs.rd_ok scf i ltac:(lia)) as (v & V). rewrite V. reflexivity.
    - rewrite Esh in E'. injection E' as <-. exact L'. }
  destruct (tns_end_ne dt sr bw G2 Hbw) as (Cb & Te).
  destruct (C42_analysis f32 (f32_ops nan) junk dt bw nn nbytes xf2) as (tns & y & ET & Htns & _ & Ly & _); [apply frame_cfg_eq; exact Cb|rewrite filter_end_eq by (apply frame_cfg_eq; exact Cb); lia|]. rewrite ET. cbn [bind].
  destruct (put_at_ok m1 (e_xs c) y) as (m2 & -> & N2 & _); [lia|lia|]. cbn [bind].
  destruct (put_at_ok m2 (e_xd c) xd') as (m3 & -> & N3 & _ & N4); [lia|lia|]. cbn [bind].
  intros Q. assert (X : h = mkShaped pp (if nn || bypass then ltpf_disable d else d) bw sns tns y over /\ mem' = m3) by (split; congruence). destruct X as (-> & ->). cbn [h_bw h_sns h_tns h_x].
  exists xd', xf, scf, xf2, nn. repeat (split; [first [assumption|reflexivity|lia]|]). apply rdn_at; [lia|lia|lia|]. intros p Hp. apply N4. lia.
Qed.

(** ** Null signals *)
Lemma shaping_zero dt sr d scf inv x y y' : tns_cfg dt sr -> sns_ok d -> decoded_scf fl d = Some scf -> zlen scf = 16 ->
  c_ne dt sr <= zlen x -> c_ne dt sr <= zlen y -> Forall zero32 x -> Forall zero32 y ->
  spectral_shaping fl junk dt sr scf inv x y = Some y' -> zlen y' = zlen y /\ Forall zero32 y'.
Proof.
  intros C Hd Ed Ls Lx Ly Zx Zy E. set (q := fun i => nth (Z.to_nat i) scf junk). assert (Hq : forall i, 0 <= i < 16 -> FloatOps.rd scf i = Some (q i)) by (intros i Hi; apply LoopProofs.rd_nth; lia).
  destruct (spectral_shaping_ok fl junk dt sr scf q inv x y C Hq Lx Ly) as (y2 & E2 & L2 & H & K). rewrite E in E2. assert (y2 = y') by congruence. subst y2. split; [exact L2|].
  apply (Forall_at _ y' (zlen y')); [reflexivity|]. intros i Hi. assert (R : FloatOps.rd y' i = Some (at_ (f32_dy 0 0) y' i)) by (apply LoopProofs.rd_nth; exact Hi).
  destruct (Z.lt_ge_cases i (c_ne dt sr)) as [L|L].
  - destruct (coef_band dt sr i C ltac:(lia)) as (b & lo & hi & B1 & B2 & B3 & B4). destruct (LoopProofs.rd_ok x i ltac:(lia)) as (v & Ev). specialize (H b lo hi i v B1 B2 B3 B4 Ev).
    rewrite R in H. assert (X : at_ (f32_dy 0 0) y' i = Mul v (band_gain fl (band_scf fl (num_bands dt sr) q inv b))) by (apply some_inj; exact H). rewrite X.
    apply zero_mul; [exact (Forall_rd zero32 x i v Zx Ev)|]. destruct (band_at nan dt sr d scf q b C Hd Ed Hq B1) as (N1 & N2 & N3 & N4).
    destruct inv; [apply (gain_val nan _ N2)|apply (gain_val nan _ N1)]; [unfold fl in *; rewrite N3, Rabs_Ropp; exact N4|exact N4].
  - rewrite (K i ltac:(lia)) in R. exact (Forall_rd zero32 y i _ Zy R).
Qed.

(** A frame of null samples after null samples. *)
Lemma shape_zero hr dt_us srp_hz c n bypass nbytes pcm fr mem xd h fr' mem' :
  e_geometry hr dt_us srp_hz c n -> zlen mem = n -> zlen pcm = c_ns (e_dt c) (e_srp c) ->
  rdn mem (e_xd c) (c_nd (e_dt c) (e_srp c)) = Some xd -> Forall zero32 xd -> Forall (fun p => zero32 (snd p)) pcm ->
  shape_frame nan lit junk junkd c bypass nbytes pcm fr mem = Some (h, fr', mem') ->
  Forall zero32 (h_x h) /\ h_tns h = mkTns (resolve_lpc_weighting (e_dt c) nbytes) (repeat [] (tns_nfilters (e_dt c) (h_bw h))) /\
  zlen mem' = n /\ exists xd', rdn mem' (e_xd c) (c_nd (e_dt c) (e_srp c)) = Some xd' /\ Forall zero32 xd'.
Proof.
  intros G Lm Lp Exd Zd Zp E. destruct (shape_frame_parts hr dt_us srp_hz c n bypass nbytes pcm fr mem xd h fr' mem' G Lm Lp Exd E) as (xd' & xf & scf & xf2 & nn & F1 & F2 & F3 & F4 & F5 & F6 & F7 & F8 & F9 & F10 & F11).
  destruct G as (S1 & S2 & S3 & G1 & G2 & G3 & G4 & G5 & G6 & G7 & G8 & G9 & G10 & G11 & G12).
  assert (Zs : Forall zero32 (map snd pcm)) by (apply Forall_map; exact Zp). assert (Ls : zlen (map snd pcm) = c_ns (e_dt c) (e_srp c)) by (unfold zlen in *; rewrite map_length; exact Lp).
  destruct (rdn_inv _ _ _ _ Exd) as (Ld & _).
  destruct (forward_zero nan junk (e_dt c) (e_sr c) (e_srp c) 0 (map snd pcm) xd (map snd pcm) G1 G3 ltac:(lia) Zs Zd Ls (eq_sym Ld) Ls ltac:(lia) G6) as (d2 & y2 & E2 & _ & _ & Z1 & Z2).
  rewrite F1 in E2. assert (X : xd' = d2 /\ xf = y2) by (split; congruence). destruct X as (<- & <-).
  destruct (shaping_zero (e_dt c) (e_sr c) (h_sns h) scf false xf xf xf2 G2 F4 F5 F6 ltac:(lia) ltac:(lia) Z2 Z2 F7) as (L2 & Z3).
  destruct (tns_end_ne (e_dt c) (e_sr c) (h_bw h) G2 F8) as (Cb & Te). pose proof (tns_zero nan junk (e_dt c) (h_bw h) nbytes nn xf2 Cb ltac:(lia) Z3) as T. unfold fl in F9. rewrite T in F9.
  assert (X : h_tns h = mkTns (resolve_lpc_weighting (e_dt c) nbytes) (repeat [] (tns_nfilters (e_dt c) (h_bw h))) /\ h_x h = xf2) by (split; congruence). destruct X as (-> & ->).
  split; [exact Z3|]. split; [reflexivity|]. split; [exact F10|]. exists xd'. auto.
Qed.
End Shape.
