(** * C45: analysis of the spectrum in binary32, from the shaped coefficients to the data of
    the frame *)
From Coq Require Import Reals ZArith List Bool Lia Lra ZifyBool.
From Flocq Require Import Core.Core IEEE754.BinarySingleNaN.
From Verif Require Import Base BaseProofs ConfigModel ConfigProofs FloatModel ResidualModel ResidualSpec SideModel SideSpec SpecModel SpecSpec BudgetModel BudgetSpec BudgetFrame.
From Verif Require TableProofs.
From Verif Require Import GainModel GainProofs GainFloat NoiseModel NoiseSpec P_Noise FloatOps FloatLaws F32Model F32Proofs SnsProject SpecEncModel SpecEncFloat SpecEncProofs.
Import ListNotations.
Local Open Scope R_scope.

Lemma lines_ne dt sr bw : (0 <= dt <= 3)%Z -> (0 <= sr < 5)%Z -> bw_ok sr bw -> (0 <= bw)%Z /\ (band_lines dt bw <= c_ne dt sr)%Z.
Proof.
  intros Hd Hs (_ & Hb). replace (is_hr sr) with false in Hb by (unfold is_hr, SRATE_48K_HR; lia). split; [lia|].
  assert (C : (dt = 0 \/ dt = 1 \/ dt = 2 \/ dt = 3)%Z) by lia. assert (S5 : (sr = 0 \/ sr = 1 \/ sr = 2 \/ sr = 3 \/ sr = 4)%Z) by lia.
  assert (B5 : (bw = 0 \/ bw = 1 \/ bw = 2 \/ bw = 3 \/ bw = 4)%Z) by lia.
  destruct C as [-> | [-> | [-> | ->]]]; destruct S5 as [-> | [-> | [-> | [-> | ->]]]]; destruct B5 as [-> | [-> | [-> | [-> | ->]]]]; try lia; vm_compute; discriminate.
Qed.

Lemma Forall2_mono {A B} (P Q : A -> B -> Prop) l l' : (forall a b, P a b -> Q a b) -> Forall2 P l l' -> Forall2 Q l l'.
Proof. intros H. induction 1; constructor; auto. Qed.

Lemma budget_le dt sr nbytes p tns : (1 <= nbytes <= 400)%Z -> (0 <= tns_nbits tns)%Z -> (spec_budget dt sr nbytes p tns <= 5000)%Z.
Proof.
  intros Hn T0. pose proof (nbits_nq_nonneg dt sr) as Q0. pose proof (b2z_range (is_hr sr)) as H0.
  assert (B0 : (0 <= bw_nbits sr)%Z).
  { unfold bw_nbits. destruct (is_hr sr); [lia|]. pose proof (b2z_range (0 <? sr)%Z). pose proof (b2z_range (1 <? sr)%Z). pose proof (b2z_range (3 <? sr)%Z). lia. }
  assert (L0 : (1 <= ltpf_nbits p)%Z) by (unfold ltpf_nbits; pose proof (b2z_range p); lia).
  unfold spec_budget, nbits_ac, sns_nbits. assert (0 <= (nbytes - 1) / 160)%Z by (apply Z.div_pos; lia). lia.
Qed.

(** C45: from finite coefficients of magnitude at most 1480000, and within what the largest
    gain can represent, the analysis gives for all the standard rates: an even count of
    coefficients, a gain index on 8 bits, a noise level on 3 bits, and coefficients which
    all can be coded (16 bits); they are the input divided by the gain of the index, to
    2^-16. The count of bits, of the coefficients up to some [n], leaves these ones in the
    budget. The state of the regulation remains such that the next frame can be analyzed. *)
Theorem C45_spectrum nan dt sr bw nbytes pitch tns st x :
  let budget := spec_budget dt sr nbytes pitch tns in
  let gain g := Rpower 10 (IZR (g - gain_offset sr nbytes) / 28) in
  (0 <= dt <= 3)%Z -> (0 <= sr < 5)%Z -> bw_ok sr bw -> (1 <= nbytes <= 400)%Z -> tns_ok dt bw nbytes tns -> (0 < budget)%Z ->
  spec_ok st -> zlen x = c_ne dt sr ->
  Forall (fun v => is_finite v = true /\ Rabs (B2R v) <= 1480000 /\ Rabs (B2R v) <= 32766 * gain 255%Z) x ->
  exists side nf us st', spectrum32 nan dt sr bw nbytes pitch tns st x = Some (side, nf, firstn (Z.to_nat (q_nq side)) us, st') /\
    (0 <= q_nq side <= c_ne dt sr)%Z /\ Z.even (q_nq side) = true /\ (0 <= q_gidx side < 256)%Z /\ (0 <= nf <= 7)%Z /\
    zlen us = c_ne dt sr /\ Forall (coded_f32 false) us /\
    Forall2 (fun v u => let y := B2R v / gain (q_gidx side) in
      Rabs (IZR u * bpow radix2 (-149) - y) <= / 2 ^ 16 * Rabs y + bpow radix2 (-146)) x us /\
    (exists n bits, (q_nq side <= n <= zlen us)%Z /\ spectrum_ok dt sr (map (quant rnd false) (firstn (Z.to_nat n) us)) /\
      compute_nbits dt sr nbytes (map (quant rnd false) (firstn (Z.to_nat n) us)) budget = (q_nq side, bits, q_lsb side)) /\
    spec_ok st'.
Proof.
  cbv zeta. intros Hd Hs Hb Hn Ht Hbud Hst Hlen Hx. destruct (lines_ne dt sr bw Hd Hs Hb) as (Hb0 & Hl).
  assert (Hr : is_hr sr = false) by (unfold is_hr, SRATE_48K_HR; lia).
  pose proof (budget_le dt sr nbytes pitch tns Hn (tns_nbits_nonneg _ _ _ _ Ht)) as Hb5.
  destruct (analyze32_ok nan dt sr nbytes pitch tns st x Hd Hs ltac:(lia) (conj Hbud Hb5) Hst Hlen) as (side & y & us & st' & E & Hst' & Eu & Lu & A).
  { eapply Forall_impl; [|exact Hx]. intros v (V1 & V2 & V3). unfold in_range, fin, val, x_bound, ten. auto. }
  destruct A as (A1 & A2 & A3 & A4 & A5 & A6 & A7). unfold spectrum32. rewrite E. cbn [bind]. rewrite Eu. cbn [bind].
  destruct (C40_level dt bw (is_hr sr) us (q_nq side) Hd Hb0 ltac:(lia) ltac:(lia)) as (nf & En & Hnf & _).
  { intros k Hk. assert (In (znth us k 0%Z) us). { apply TableProofs.znth_In. lia. }
    rewrite Forall_forall in A5. specialize (A5 _ H). cbv beta in A5. assert (0 < one)%Z by reflexivity. change (2 ^ 23)%Z with 8388608%Z. lia. }
  rewrite En. cbn [bind]. exists side, nf, us, st'. split; [reflexivity|]. repeat match goal with |- _ /\ _ => split end; try assumption; try lia.
  eapply Forall2_mono; [|exact A6]. intros v u. cbv zeta. unfold val. set (g := ten (- (q_gidx side - gain_offset sr nbytes))).
  assert (G : B2R v / Rpower 10 (IZR (q_gidx side - gain_offset sr nbytes) / 28) = B2R v * g).
  { unfold Rdiv, g, ten. f_equal. rewrite <- Rpower_Ropp. f_equal. rewrite opp_IZR. lra. }
  rewrite G. assert (0 < g) by apply ten_pos. rewrite Rabs_mult, (Rabs_pos_eq g) by lra. auto.
Qed.
Print Assumptions C45_spectrum.

(** 2.5 ms at 8 kHz, 30 bytes: the 20 coefficients are kept, divided by 10^(-12/28); the first is
    2414 for 900. *)
Definition ex_shaped : list Z := [900; -700; 350; 20; -15; 120; 60; -33; 8; 3; -2; 1; 5; -4; 0; 2; 1; 0; -1; 0]%Z.
Example C45_spectrum_example :
  let tns := mkTns false [[]] in
  (spec_budget 0 0 30 false tns = 182)%Z /\ tns_ok 0 0 30 tns /\ spec_ok spec_init /\ zlen (map f32_of_int ex_shaped) = c_ne 0 0 /\
  Forall (fun v => is_finite v = true /\ Rabs (B2R v) <= 1480000 /\ Rabs (B2R v) <= 32766 * Rpower 10 (IZR (255 - gain_offset 0 30) / 28)) (map f32_of_int ex_shaped) /\
  match spectrum32 0 0 0 0 30 false tns spec_init (map f32_of_int ex_shaped) with
  | Some (side, nf, us, st) => (q_nq side =? 20)%Z && negb (q_lsb side) && (q_gidx side =? 122)%Z && (nf =? 7)%Z && (zlen us =? 20)%Z &&
                               (znth us 0 0 / one =? 2414)%Z && (s_spare st =? 17)%Z
  | None => false
  end = true.
Proof.
  cbv zeta. split; [reflexivity|]. split; [split; [reflexivity|split; [reflexivity|repeat constructor; cbv; discriminate]]|]. split; [exact spec_init_ok|]. split; [reflexivity|].
  split; [|vm_compute; reflexivity]. apply Forall_forall. intros v Hv. apply in_map_iff in Hv as (z & <- & Hz).
  assert (B : (Z.abs z <= 900)%Z).
  { pose proof (proj1 (forallb_forall (fun z => Z.abs z <=? 900)%Z ex_shaped) eq_refl z Hz) as B. cbv beta in B. lia. }
  destruct (dy_exact z 0) as (F & V); try lia. fold (f32_of_int z) in F, V. unfold fin, val in *. split; [exact F|]. rewrite V. change (- 0)%Z with 0%Z.
  assert (A : Rabs (IZR z * p2 0) <= 900). { cbn. rewrite Rmult_1_r, <- abs_IZR. apply IZR_le. exact B. }
  split; [lra|]. change (255 - gain_offset 0 30)%Z with 121%Z. assert (T : 1 <= ten 121). { rewrite <- ten_0. apply ten_le. lia. } unfold ten in T. lra.
Qed.
