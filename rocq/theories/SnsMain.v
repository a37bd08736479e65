(** * Spectral noise shaping of a frame, on both sides *)
From Coq Require Import ZArith List Bool Lia.
From Verif Require Import Base ConfigModel SideModel SideSpec ShapeTables FloatOps LoopProofs TnsProofs BandModel BandProofs PvqModel PvqProofs SnsModel SnsProofs SnsShape.
Import ListNotations.
Local Open Scope Z_scope.

Section Main.
Context {F : Type} (fl : fops F).

(** The scale factors before quantization have a projection, whatever the codebook entries. *)
Definition analysis_ok (junk : F) (dt sr nbytes : Z) (eb : list F) (att : bool) : Prop :=
  forall scf lf hf, compute_scale_factors fl junk dt sr nbytes eb att = Some scf -> 0 <= lf < 32 -> 0 <= hf < 32 -> projection_ok fl scf lf hf.

(** Decoded scale factors. *)
Definition decoded_scf (d : sns_data) : option (list F) :=
  do c <- deenumerate (s_shape d) (s_idx_a d) (s_ls_a d =? 1) (s_idx_b d) (s_ls_b d =? 1);
  do cn <- normalize fl c;
  SnsModel.unquantize fl (s_lfcb d) (s_hfcb d) cn (s_shape d) (s_gain d).

Lemma b2z_1 b : (b2z b =? 1) = b. Proof. destruct b; reflexivity. Qed.
Lemma b2z_01 b : b2z b = 0 \/ b2z b = 1. Proof. destruct b; auto. Qed.

Lemma sns_analyze_ok junk dt sr nbytes eb att x y : tns_cfg dt sr -> zlen eb = num_bands dt sr -> c_ne dt sr <= zlen x -> c_ne dt sr <= zlen y ->
  analysis_ok junk dt sr nbytes eb att ->
  exists d scf y', sns_analyze fl junk dt sr nbytes eb att x y = Some (d, scf, y') /\ sns_ok d /\ decoded_scf d = Some scf /\ zlen scf = 16 /\
    spectral_shaping fl junk dt sr scf false x y = Some y'.
Proof.
  intros C L Lx Ly HA. unfold sns_analyze. destruct (compute_ok fl junk dt sr nbytes eb att C L) as (scf0 & E0 & L0). rewrite E0. cbn [bind].
  destruct (resolve_ok fl sns_lfcb scf0 0 lfcb_mat ltac:(lia) ltac:(lia)) as (lf & -> & Hlf). cbn [bind].
  destruct (resolve_ok fl sns_hfcb scf0 8 hfcb_mat ltac:(lia) ltac:(lia)) as (hf & -> & Hhf). cbn [bind].
  destruct (quantize_ok fl scf0 lf hf L0 Hlf Hhf (HA _ _ _ E0 Hlf Hhf)) as (cs & cns & shape & gain & c & cn & -> & Hs & Hg & Ec & Kc & Ecn & En & Ln). cbn [bind].
  rewrite Ecn. cbn [bind]. destruct (unquantize_ok fl lf hf cn shape gain Hlf Hhf Ln Hs Hg) as (scf & Eu & Lu). rewrite Eu, Ec. cbn [bind].
  destruct (enumerate_ok shape c Hs Kc) as (ia & la & ob & -> & Hia & HB). cbn [bind].
  assert (Hq : forall i, 0 <= i < 16 -> rd scf i = Some (nth (Z.to_nat i) scf junk)) by (intros i Hi; apply rd_nth; lia).
  destruct (spectral_shaping_ok fl junk dt sr scf _ false x y C Hq Lx Ly) as (y' & Ey & _).
  destruct (shape =? 0) eqn:S0.
  - destruct HB as (ib & lb & -> & Hib & D). cbv beta iota. rewrite Ey. cbn [bind]. do 3 eexists. split; [reflexivity|]. unfold sns_ok, decoded_scf.
    cbn [s_lfcb s_hfcb s_shape s_gain s_idx_a s_ls_a s_idx_b s_ls_b]. rewrite !b2z_1, D. cbn [bind]. rewrite En. cbn [bind]. spl; auto using b2z_01; try lia; try (intros _; split; [lia|apply b2z_01]).
  - destruct HB as (-> & D). cbv beta iota. rewrite Ey. cbn [bind]. do 3 eexists. split; [reflexivity|]. unfold sns_ok, decoded_scf.
    cbn [s_lfcb s_hfcb s_shape s_gain s_idx_a s_ls_a s_idx_b s_ls_b]. rewrite !b2z_1, D. cbn [bind]. rewrite En. cbn [bind]. spl; auto using b2z_01; lia.
Qed.

Lemma decoded_scf_ok d : sns_ok d -> exists scf, decoded_scf d = Some scf /\ zlen scf = 16.
Proof.
  intros (H1 & H2 & H3 & H4 & H5 & H6 & H7). unfold decoded_scf.
  destruct (deenumerate_ok (s_shape d) (s_idx_a d) (s_ls_a d =? 1) (s_idx_b d) (s_ls_b d =? 1) H3 H5) as (c & -> & K & _); [intros A; apply H7; exact A|]. cbn [bind].
  destruct (normalize_ok fl c) as (cn & -> & L); [destruct K as (A & _); unfold zlen; lia|]. cbn [bind]. apply unquantize_ok; auto.
Qed.

Lemma sns_synthesize_ok junk dt sr d x y : tns_cfg dt sr -> sns_ok d -> c_ne dt sr <= zlen x -> c_ne dt sr <= zlen y ->
  exists scf y', sns_synthesize fl junk dt sr d x y = Some (scf, y') /\ decoded_scf d = Some scf /\ zlen scf = 16 /\
    spectral_shaping fl junk dt sr scf true x y = Some y'.
Proof.
  intros C Hd Lx Ly. destruct (decoded_scf_ok d Hd) as (scf & E & L). pose proof E as E'. unfold decoded_scf in E'. unfold sns_synthesize.
  destruct (deenumerate (s_shape d) (s_idx_a d) (s_ls_a d =? 1) (s_idx_b d) (s_ls_b d =? 1)) as [c|]; [|discriminate]. cbn [bind] in *.
  destruct (normalize fl c) as [cn|]; [|discriminate]. cbn [bind] in *. rewrite E'. cbn [bind].
  assert (Hq : forall i, 0 <= i < 16 -> rd scf i = Some (nth (Z.to_nat i) scf junk)) by (intros i Hi; apply rd_nth; lia).
  destruct (spectral_shaping_ok fl junk dt sr scf _ true x y C Hq Lx Ly) as (y' & Ey & _). rewrite Ey. cbn [bind]. eauto 6.
Qed.

(** Encoder then decoder: each coefficient is multiplied by two gains of the same scale factors,
    the second ones negated. *)
Lemma sns_round_trip junk junk' dt sr nbytes eb att x y y2 : tns_cfg dt sr -> zlen eb = num_bands dt sr -> c_ne dt sr <= zlen x -> c_ne dt sr <= zlen y -> c_ne dt sr <= zlen y2 ->
  analysis_ok junk dt sr nbytes eb att ->
  exists d scf y1 z (q : Z -> F), sns_analyze fl junk dt sr nbytes eb att x y = Some (d, scf, y1) /\ sns_ok d /\
    sns_synthesize fl junk' dt sr d y1 y2 = Some (scf, z) /\ zlen y1 = zlen y /\ zlen z = zlen y2 /\ zlen scf = 16 /\ (forall i, 0 <= i < 16 -> rd scf i = Some (q i)) /\
    forall i v, 0 <= i < c_ne dt sr -> rd x i = Some v -> exists b, 0 <= b < num_bands dt sr /\
      rd y1 i = Some (f_mul fl v (band_gain fl (band_scf fl (num_bands dt sr) q false b))) /\
      rd z i = Some (f_mul fl (f_mul fl v (band_gain fl (band_scf fl (num_bands dt sr) q false b))) (band_gain fl (band_scf fl (num_bands dt sr) q true b))).
Proof.
  intros C L Lx Ly L2 HA. destruct (sns_analyze_ok junk dt sr nbytes eb att x y C L Lx Ly HA) as (d & scf & y1 & E & Hd & Ed & Ls & Ey).
  set (q := fun i => nth (Z.to_nat i) scf junk).
  assert (Hq : forall i, 0 <= i < 16 -> rd scf i = Some (q i)) by (intros i Hi; apply rd_nth; lia).
  destruct (spectral_shaping_ok fl junk dt sr scf q false x y C Hq Lx Ly) as (y1' & Ey' & L1 & H1 & G1). rewrite Ey in Ey'. injection Ey' as <-.
  destruct (sns_synthesize_ok junk' dt sr d y1 y2 C Hd ltac:(lia) L2) as (scf' & z & Ez & Ed' & _ & Es). rewrite Ed in Ed'. injection Ed' as <-.
  destruct (spectral_shaping_ok fl junk' dt sr scf q true y1 y2 C Hq ltac:(lia) L2) as (z' & Es' & L3 & H3 & G3). rewrite Es in Es'. injection Es' as <-.
  exists d, scf, y1, z, q. spl; auto. intros i v Hi Hv. destruct (coef_band dt sr i C Hi) as (b & lo & hi & B1 & B2 & B3 & B4). exists b. split; [exact B1|].
  pose proof (H1 b lo hi i v B1 B2 B3 B4 Hv) as R. split; [exact R|]. exact (H3 b lo hi i _ B1 B2 B3 B4 R).
Qed.
End Main.
