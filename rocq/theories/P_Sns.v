(** * C44: spectral noise shaping *)
From Coq Require Import ZArith Reals List Bool Lia Lra.
From Flocq Require Import IEEE754.BinarySingleNaN.
From Verif Require Import Base ConfigModel SideModel SideSpec ShapeTables FloatOps LoopProofs RealOps TnsProofs BandModel BandProofs PvqModel F32Model SnsModel SnsProofs SnsShape SnsMain SnsFloat SnsProject SnsReal.
Import ListNotations.
Local Open Scope Z_scope.

(** ** Specification *)
(** Gain of coefficient i of a frame for the 16 scale factors q: that of its band, 2 to the
    scale factor of the band, interpolated. [interp_at] gives the 64 values of the linear
    interpolation, at the odd eighths of the intervals, and [fold_at] those of the bands of a
    frame of less than 64 bands, by means. [inv] is the direction: the encoder divides. *)
Definition gain_of {F} (fl : fops F) (dt sr : Z) (q : Z -> F) (inv : bool) (i : Z) (g : F) : Prop :=
  exists b lo hi, 0 <= b < num_bands dt sr /\ rd (lim_of dt sr) b = Some lo /\ rd (lim_of dt sr) (b + 1) = Some hi /\ lo <= i < hi /\
    g = f_exp2 fl (f_opp fl (fold_at fl (num_bands dt sr) (interp_at fl (fun k => if inv then f_opp fl (q k) else q k)) b)).

(** ** The data of the encoder can be coded, in binary32, whatever the energies *)
Theorem C44_codable nan junk dt sr nbytes eb att x y :
  tns_cfg dt sr -> zlen eb = num_bands dt sr -> c_ne dt sr <= zlen x -> c_ne dt sr <= zlen y ->
  exists d scf y', sns_analyze (f32_ops nan) junk dt sr nbytes eb att x y = Some (d, scf, y') /\ sns_ok d.
Proof.
  intros C L Lx Ly. destruct (sns_analyze_ok (f32_ops nan) junk dt sr nbytes eb att x y C L Lx Ly (f32_analysis_ok nan junk dt sr nbytes eb att C L)) as (d & scf & y' & E & H & _). eauto.
Qed.
Print Assumptions C44_codable.

(** ** The decoder has the scale factors of the encoder, to the bit *)
Theorem C44_same_scale_factors nan junk junk' dt sr nbytes eb att x y z z' d scf y' :
  tns_cfg dt sr -> zlen eb = num_bands dt sr -> c_ne dt sr <= zlen x -> c_ne dt sr <= zlen y -> c_ne dt sr <= zlen z -> c_ne dt sr <= zlen z' ->
  sns_analyze (f32_ops nan) junk dt sr nbytes eb att x y = Some (d, scf, y') ->
  exists o, sns_synthesize (f32_ops nan) junk' dt sr d z z' = Some (scf, o).
Proof.
  intros C L Lx Ly Lz Lz' E.
  destruct (sns_analyze_ok (f32_ops nan) junk dt sr nbytes eb att x y C L Lx Ly (f32_analysis_ok nan junk dt sr nbytes eb att C L)) as (d1 & scf1 & y1 & E1 & H & Ed & _).
  rewrite E in E1. apply some_inj in E1. assert (A : d1 = d /\ scf1 = scf) by (split; congruence). destruct A as (-> & ->).
  destruct (sns_synthesize_ok (f32_ops nan) junk' dt sr d z z' C H Lz Lz') as (scf2 & o & E2 & Ed2 & _). exists o. rewrite E2. congruence.
Qed.
Print Assumptions C44_same_scale_factors.

(** ** The decoder has scale factors for all the data of a bitstream; any arithmetic *)
Theorem C44_decoder_total {F} (fl : fops F) junk dt sr d x y :
  tns_cfg dt sr -> sns_ok d -> c_ne dt sr <= zlen x -> c_ne dt sr <= zlen y ->
  exists scf y', sns_synthesize fl junk dt sr d x y = Some (scf, y') /\ zlen scf = 16 /\ zlen y' = zlen y.
Proof.
  intros C H Lx Ly. destruct (sns_synthesize_ok fl junk dt sr d x y C H Lx Ly) as (scf & y' & E & _ & Ls & Es). exists scf, y'. spl; auto.
  destruct (spectral_shaping_ok fl junk dt sr scf (fun i => nth (Z.to_nat i) scf junk) true x y C ltac:(intros i Hi; apply rd_nth; lia) Lx Ly) as (y2 & E2 & L2 & _). congruence.
Qed.
Print Assumptions C44_decoder_total.

(** ** Shaping: each coefficient is multiplied by the gain of its band, the others are left *)
Theorem C44_shaping {F} (fl : fops F) junk dt sr scf (q : Z -> F) inv x y :
  tns_cfg dt sr -> (forall k, 0 <= k < 16 -> rd scf k = Some (q k)) -> c_ne dt sr <= zlen x -> c_ne dt sr <= zlen y ->
  exists y', spectral_shaping fl junk dt sr scf inv x y = Some y' /\ zlen y' = zlen y /\
    (forall i v, 0 <= i < c_ne dt sr -> rd x i = Some v -> exists g, gain_of fl dt sr q inv i g /\ rd y' i = Some (f_mul fl v g)) /\
    (forall i, c_ne dt sr <= i -> rd y' i = rd y i).
Proof.
  intros C Hq Lx Ly. destruct (spectral_shaping_ok fl junk dt sr scf q inv x y C Hq Lx Ly) as (y' & E & L & H1 & H2). exists y'. spl; auto.
  intros i v Hi Hv. destruct (coef_band dt sr i C Hi) as (b & lo & hi & B1 & B2 & B3 & B4). eexists. split; [exists b, lo, hi; spl; try eassumption; try lia; reflexivity|]. exact (H1 b lo hi i v B1 B2 B3 B4 Hv).
Qed.
Print Assumptions C44_shaping.

(** ** Exact arithmetic: the shaping of the decoder undoes that of the encoder *)
Theorem C44_inverse_reals junk junk' dt sr nbytes eb att x y z :
  tns_cfg dt sr -> zlen eb = num_bands dt sr -> c_ne dt sr <= zlen x -> c_ne dt sr <= zlen y -> c_ne dt sr <= zlen z ->
  exists d scf y' z', sns_analyze Rops junk dt sr nbytes eb att x y = Some (d, scf, y') /\ sns_ok d /\
    sns_synthesize Rops junk' dt sr d y' z = Some (scf, z') /\ forall i, 0 <= i < c_ne dt sr -> rd z' i = rd x i.
Proof.
  intros C L Lx Ly Lz. destruct (sns_round_trip Rops junk junk' dt sr nbytes eb att x y z C L Lx Ly Lz (R_analysis_ok junk dt sr nbytes eb att C L)) as (d & scf & y1 & z1 & q & E & H & E2 & _ & _ & _ & _ & K).
  exists d, scf, y1, z1. spl; auto. intros i Hi. destruct (rd_ok x i ltac:(lia)) as (v & Ev). destruct (K i v Hi Ev) as (b & Hb & _ & ->). rewrite Ev. f_equal. cbn [f_mul Rops].
  rewrite Rmult_assoc, gains_inverse. apply Rmult_1_r.
Qed.
Print Assumptions C44_inverse_reals.

(** ** No effect of the arrays that are not initialised *)
Theorem C44_uninitialised nan junk junk' dt sr nbytes eb att x y :
  tns_cfg dt sr -> zlen eb = num_bands dt sr -> c_ne dt sr <= zlen x -> c_ne dt sr <= zlen y ->
  sns_analyze (f32_ops nan) junk dt sr nbytes eb att x y = sns_analyze (f32_ops nan) junk' dt sr nbytes eb att x y.
Proof.
  intros C L Lx Ly. pose proof (f32_analysis_ok nan junk dt sr nbytes eb att C L) as HA. revert HA. generalize (f32_ops nan). intros fl HA. destruct (sns_analyze_ok fl junk dt sr nbytes eb att x y C L Lx Ly HA) as (d & scf & y' & E & _ & _ & Ls & Ey).
  rewrite E. unfold sns_analyze in *. rewrite <- (compute_junk fl junk junk') by assumption.
  apply bind_inv in E as (s0 & -> & E). cbn [bind]. apply bind_inv in E as (lf & -> & E). cbn [bind]. apply bind_inv in E as (hf & -> & E). cbn [bind].
  apply bind_inv in E as ((((cs & cns) & sh) & ga) & -> & E). cbn [bind]. apply bind_inv in E as (cn & -> & E). cbn [bind]. apply bind_inv in E as (sc & -> & E). cbn [bind].
  apply bind_inv in E as (c & -> & E). cbn [bind]. apply bind_inv in E as (((ia & la) & ob) & -> & E). cbn [bind]. destruct (match ob with Some p => p | None => (0, false) end) as (ib & lb).
  apply bind_inv in E as (y2 & Ey2 & E). assert (S : sc = scf) by congruence. subst sc. rewrite <- (spectral_shaping_junk fl junk junk') by assumption. rewrite Ey2. cbn [bind]. symmetry. exact E.
Qed.
Print Assumptions C44_uninitialised.

(** ** The codebook entries are the nearest ones, and the shape and gain the best of the
       candidates *)
Theorem C44_nearest_entries scf i : zlen scf = 16 ->
  (resolve_cb Rops sns_lfcb scf 0 = Some i -> exists cb, rd sns_lfcb i = Some cb /\ forall k cb', rd sns_lfcb k = Some cb' -> (dist2 scf 0 cb <= dist2 scf 0 cb')%R) /\
  (resolve_cb Rops sns_hfcb scf 8 = Some i -> exists cb, rd sns_hfcb i = Some cb /\ forall k cb', rd sns_hfcb k = Some cb' -> (dist2 scf 8 cb <= dist2 scf 8 cb')%R).
Proof. intros L. split; [apply (resolve_best sns_lfcb scf 0 i lfcb_mat)|apply (resolve_best sns_hfcb scf 8 i hfcb_mat)]; lia. Qed.
Print Assumptions C44_nearest_entries.

Theorem C44_best_shape_gain x cns shape gain :
  zlen x = 16 -> zlen cns = 4 -> Forall (fun cn => zlen cn = 16) cns -> shape_gain Rops x cns = Some (shape, gain) ->
  forall ic ig cn gs g, rd cns ic = Some cn -> rd sns_vq_gains ic = Some gs -> rd (snd gs) ig = Some g -> (err2 x cn (IZR g / 2 ^ 12) < FLT_MAX)%R ->
  exists cn0 gs0 g0, rd cns shape = Some cn0 /\ rd sns_vq_gains shape = Some gs0 /\ rd (snd gs0) gain = Some g0 /\
    (err2 x cn0 (IZR g0 / 2 ^ 12) <= err2 x cn (IZR g / 2 ^ 12))%R.
Proof. exact (shape_gain_best x cns shape gain). Qed.
Print Assumptions C44_best_shape_gain.

(** ** Examples
    A frame of 10 ms at 16 kHz, 40 bytes, energies with a peak, one that is infinite and one
    that is not a number; the spectrum is of ones. *)
Definition ex_nan : Z := 255 * 2 ^ 23 + 1.
Definition ex_energies : list f32 :=
  B754_infinity false :: B754_nan :: map (fun b => if b =? 5 then f32_dy 1 (-20) else f32_dy (b + 1) 0) (map Z.of_nat (seq 0 62)).
Definition ex_ones : list f32 := repeat (f32_dy 1 0) 160.
Definition ex_data : sns_data := mkSns 14 27 1 3 781506 1 0 0.

Example C44_codable_ex :
  tns_cfg DT_10M 1 /\ zlen ex_energies = num_bands DT_10M 1 /\ zlen ex_ones = c_ne DT_10M 1 /\
  option_map (fun r => fst (fst r)) (sns_analyze (f32_ops ex_nan) B754_nan DT_10M 1 40 ex_energies false ex_ones ex_ones) = Some ex_data.
Proof. split; [unfold tns_cfg; change DT_10M with 3; change DT_7M5 with 2; lia|]. vm_compute. auto. Qed.

Example C44_decoder_ex : sns_ok ex_data.
Proof. unfold sns_ok. repeat match goal with |- _ /\ _ => split end; try (vm_compute; reflexivity); try (vm_compute; discriminate). right. reflexivity. Qed.

(** Frames of 2.5 ms at 8 kHz: 20 bands, the four first widths of the interpolation are joined
    by four, the others by two. *)
Example C44_bands_ex : num_bands DT_2M5 0 = 20 /\ pad_n4 20 = 12 /\ pad_n2 20 = 8.
Proof. vm_compute. auto. Qed.

Example C44_nearest_ex : exists i, resolve_cb Rops sns_lfcb (repeat 0%R 16) 0 = Some i.
Proof. destruct (resolve_ok Rops sns_lfcb (repeat 0%R 16) 0 lfcb_mat ltac:(lia) ltac:(rewrite zlen_repeat; lia)) as (i & E & _). eauto. Qed.

Example C44_best_ex : exists shape gain, shape_gain Rops (repeat 1%R 16) (repeat (repeat (/ 4)%R 16) 4) = Some (shape, gain).
Proof.
  destruct (shape_gain_ok Rops (repeat 1%R 16) (repeat (repeat (/ 4)%R 16) 4) ltac:(apply zlen_repeat) ltac:(apply zlen_repeat)) as (s & g & E & _); [|eauto].
  apply Forall_forall. intros v Hv. apply repeat_spec in Hv. subst v. apply zlen_repeat.
Qed.
