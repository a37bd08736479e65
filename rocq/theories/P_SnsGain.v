(** * C44 in binary32: the gains of the decoder undo those of the encoder *)
From Coq Require Import ZArith Reals List Bool Lia Lra.
From Flocq Require Import Core.Core IEEE754.BinarySingleNaN.
From Verif Require Import Base ConfigModel SideModel SideSpec ShapeTables FloatOps FloatLaws LoopProofs TnsProofs BandModel BandProofs PvqModel F32Model F32Proofs SnsModel SnsProofs SnsShape SnsMain SnsFloat SnsProject FastFloat FastExp SnsGain P_Fast P_Sns.
Import ListNotations.
Local Open Scope Z_scope.

Lemma nb_range dt sr : tns_cfg dt sr -> 20 <= num_bands dt sr <= 64.
Proof. intros C. destruct (lim_ok dt sr C) as (Hn & _). unfold MAX_BANDS in Hn. exact Hn. Qed.
Lemma band_at nan dt sr d scf (q : Z -> f32) b : tns_cfg dt sr -> sns_ok d -> decoded_scf (f32_ops nan) d = Some scf -> (forall i, 0 <= i < 16 -> rd scf i = Some (q i)) -> 0 <= b < num_bands dt sr ->
  neg 70 (band_scf (f32_ops nan) (num_bands dt sr) q false b) (band_scf (f32_ops nan) (num_bands dt sr) q true b).
Proof.
  intros C Hd Ed Hq Hb. destruct (decoded_val nan d Hd) as (scf' & E & B). rewrite Ed in E. injection E as <-. apply band_neg; [|exact (nb_range dt sr C)|exact Hb].
  intros i Hi. destruct (B i Hi) as (v & Ev & K). rewrite (Hq i Hi) in Ev. injection Ev as <-. exact K.
Qed.

(** The decoder: whatever the side data of a frame, the gains are positive numbers, neither infinite
    nor too small, and a finite spectrum stays finite. *)
Theorem C44_decoded_gains nan junk dt sr d x y : tns_cfg dt sr -> sns_ok d -> c_ne dt sr <= zlen x -> c_ne dt sr <= zlen y ->
  (forall i v, 0 <= i < c_ne dt sr -> rd x i = Some v -> is_finite v = true /\ (Rabs (B2R v) <= 2 ^ 50)%R) ->
  exists scf y', sns_synthesize (f32_ops nan) junk dt sr d x y = Some (scf, y') /\
    forall i v, 0 <= i < c_ne dt sr -> rd x i = Some v -> exists g w, rd y' i = Some w /\ w = Mul v g /\
      is_finite g = true /\ (/ 2 ^ 71 <= B2R g <= 2 ^ 71)%R /\ is_finite w = true.
Proof.
  intros C Hd Lx Ly HX. destruct (sns_synthesize_ok (f32_ops nan) junk dt sr d x y C Hd Lx Ly) as (scf & y' & E & Ed & Ls & Es). exists scf, y'. split; [exact E|].
  set (q := fun i => nth (Z.to_nat i) scf junk). assert (Hq : forall i, 0 <= i < 16 -> rd scf i = Some (q i)) by (intros i Hi; apply rd_nth; lia).
  destruct (spectral_shaping_ok (f32_ops nan) junk dt sr scf q true x y C Hq Lx Ly) as (y2 & Es2 & _ & H & _). rewrite Es in Es2. injection Es2 as <-.
  intros i v Hi Ev. destruct (coef_band dt sr i C Hi) as (b & lo & hi & B1 & B2 & B3 & B4). specialize (H b lo hi i v B1 B2 B3 B4 Ev).
  destruct (band_at nan dt sr d scf q b C Hd Ed Hq B1) as (N1 & N2 & N3 & N4). assert (N5 : (Rabs (val (band_scf (f32_ops nan) (num_bands dt sr) q true b)) <= 70)%R) by (rewrite N3, Rabs_Ropp; exact N4).
  destruct (gain_val nan _ N2 N5) as (G1 & G2 & _). eexists _, _. split; [exact H|]. split; [reflexivity|]. split; [exact G1|]. split.
  - change (-71)%Z with (- Z.of_nat 71)%Z in G2. rewrite p2_neg in G2. change 71%Z with (Z.of_nat 71) in G2. rewrite p2_pos in G2. exact G2.
  - destruct (HX i v Hi Ev) as (Fv & Bv). set (g := band_gain _ _) in *. clearbody g. assert (M : (Rabs (val v * val g) <= p2 121)%R).
    { assert (0 < p2 (-71))%R by apply bpow_gt_0. rewrite Rabs_mult, (Rabs_pos_eq (val g)) by lra. change 121%Z with (50 + 71)%Z. rewrite bpow_plus. apply Rmult_le_compat; try apply Rabs_pos; try lra. change 50%Z with (Z.of_nat 50). rewrite p2_pos. exact Bv. }
    destruct (mul_val v g Fv G1) as (A & _); [|exact A]. apply Rle_lt_trans with (p2 121); [|apply bpow_lt; lia]. apply abs_round_le_generic; try apply valid_rnd_N; [apply fexp_correct; reflexivity|apply generic_format_bpow; cbn; lia|exact M].
Qed.
Print Assumptions C44_decoded_gains.

(** The encoder then the decoder: each coefficient comes back within one part in a million, whatever
    the energies of the bands. *)
Theorem C44_inverse_f32 nan junk junk' dt sr nbytes eb att x y z :
  tns_cfg dt sr -> zlen eb = num_bands dt sr -> c_ne dt sr <= zlen x -> c_ne dt sr <= zlen y -> c_ne dt sr <= zlen z ->
  (forall i v, 0 <= i < c_ne dt sr -> rd x i = Some v -> is_finite v = true /\ (Rabs (B2R v) <= 2 ^ 50)%R) ->
  exists d scf y' z', sns_analyze (f32_ops nan) junk dt sr nbytes eb att x y = Some (d, scf, y') /\ sns_ok d /\
    sns_synthesize (f32_ops nan) junk' dt sr d y' z = Some (scf, z') /\
    forall i v, 0 <= i < c_ne dt sr -> rd x i = Some v -> exists w u, rd y' i = Some w /\ is_finite w = true /\
      rd z' i = Some u /\ is_finite u = true /\ (Rabs (B2R u - B2R v) <= Rabs (B2R v) / 1000000 + / 2 ^ 77)%R.
Proof.
  intros C L Lx Ly Lz HX. pose proof (f32_analysis_ok nan junk dt sr nbytes eb att C L) as HA.
  destruct (sns_round_trip (f32_ops nan) junk junk' dt sr nbytes eb att x y z C L Lx Ly Lz HA) as (d & scf & y1 & z1 & q & E & Hd & E2 & _ & _ & _ & Hq & K).
  exists d, scf, y1, z1. split; [exact E|]. split; [exact Hd|]. split; [exact E2|].
  assert (Ly1 : c_ne dt sr <= zlen y1). { destruct (sns_analyze_ok (f32_ops nan) junk dt sr nbytes eb att x y C L Lx Ly HA) as (d0 & scf0 & y0 & E0 & _ & _ & Ls0 & Es0). rewrite E in E0. injection E0 as <- <- <-.
    destruct (spectral_shaping_ok (f32_ops nan) junk dt sr scf q false x y C Hq Lx Ly) as (y2 & Es2 & Ly2 & _). rewrite Es0 in Es2. injection Es2 as <-. lia. }
  assert (Ed : decoded_scf (f32_ops nan) d = Some scf). { destruct (sns_synthesize_ok (f32_ops nan) junk' dt sr d y1 z C Hd Ly1 Lz) as (s2 & z2 & E3 & Ed & _). rewrite E2 in E3. injection E3 as <- <-. exact Ed. }
  intros i v Hi Ev. destruct (K i v Hi Ev) as (b & Hb & K1 & K2). destruct (HX i v Hi Ev) as (Fv & Bv).
  pose proof (band_at nan dt sr d scf q b C Hd Ed Hq Hb) as N. destruct (two_gains nan v _ _ Fv ltac:(change 50%Z with (Z.of_nat 50); rewrite p2_pos; exact Bv) N) as (F1 & F2 & _ & D).
  eexists _, _. split; [exact K1|]. split; [exact F1|]. split; [exact K2|]. split; [exact F2|]. change (-77)%Z with (- Z.of_nat 77)%Z in D. rewrite p2_neg in D. unfold Rdiv. rewrite (Rmult_comm (Rabs (B2R v))). exact D.
Qed.
Print Assumptions C44_inverse_f32.

(** The spectrum of ones of [C44_codable_ex], with an energy that is infinite and one that is not
    a number, and the data of that frame for the decoder. *)
Example C44_inverse_f32_ex : tns_cfg DT_10M 1 /\ zlen ex_energies = num_bands DT_10M 1 /\ zlen ex_ones = c_ne DT_10M 1 /\ sns_ok ex_data /\
  forall i v, 0 <= i < c_ne DT_10M 1 -> rd ex_ones i = Some v -> is_finite v = true /\ (Rabs (B2R v) <= 2 ^ 50)%R.
Proof.
  destruct C44_codable_ex as (A & B & D & _). split; [exact A|]. split; [exact B|]. split; [exact D|]. split; [exact C44_decoder_ex|].
  intros i v Hi E. apply LoopProofs.rd_In, repeat_spec in E. subst v. destruct (int_val 1 ltac:(lia)) as (F & V). split; [exact F|]. unfold val in V. rewrite V, Rabs_R1. lra.
Qed.
