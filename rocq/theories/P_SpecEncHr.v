(** * C45 for the high resolution modes *)
From Coq Require Import Reals ZArith List Bool Lia Lra ZifyBool.
From Flocq Require Import Core.Core IEEE754.BinarySingleNaN.
From Verif Require Import Base BaseProofs ConfigModel ConfigProofs FloatModel ResidualModel ResidualSpec SideModel SideSpec SpecModel SpecSpec BudgetModel BudgetSpec BudgetFrame.
From Verif Require TableProofs.
From Verif Require Import GainModel GainProofs GainFloat NoiseModel NoiseSpec P_Noise FloatOps FloatLaws F32Model F32Proofs SnsProject SpecEncModel SpecEncFloat SpecEncProofs SpecEncHr P_SpecEnc.
Import ListNotations.
Local Open Scope R_scope.

Lemma lines_hr dt sr bw : (0 <= dt <= 3)%Z -> (5 <= sr < 7)%Z -> bw_ok sr bw -> (0 <= bw)%Z /\ (band_lines dt bw <= c_ne dt sr)%Z.
Proof.
  intros Hd Hs (_ & Hb). replace (is_hr sr) with true in Hb by (unfold is_hr, SRATE_48K_HR; lia). subst bw. split; [lia|].
  assert (C : (dt = 0 \/ dt = 1 \/ dt = 2 \/ dt = 3)%Z) by lia. assert (S2 : (sr = 5 \/ sr = 6)%Z) by lia.
  destruct C as [-> | [-> | [-> | ->]]]; destruct S2 as [-> | ->]; vm_compute; discriminate.
Qed.
Lemma budget_hr dt sr nbytes p tns : (1 <= nbytes <= 625)%Z -> (0 <= tns_nbits tns)%Z -> (spec_budget dt sr nbytes p tns <= 5000)%Z.
Proof.
  intros Hn T0. pose proof (nbits_nq_nonneg dt sr) as Q0. pose proof (b2z_range (is_hr sr)) as H0.
  assert (B0 : (0 <= bw_nbits sr)%Z).
  { unfold bw_nbits. destruct (is_hr sr); [lia|]. pose proof (b2z_range (0 <? sr)%Z). pose proof (b2z_range (1 <? sr)%Z). pose proof (b2z_range (3 <? sr)%Z). lia. }
  assert (L0 : (1 <= ltpf_nbits p)%Z) by (unfold ltpf_nbits; pose proof (b2z_range p); lia).
  unfold spec_budget, nbits_ac, sns_nbits. assert (0 <= (nbytes - 1) / 160)%Z by (apply Z.div_pos; lia). lia.
Qed.

(** C45: as [C45_spectrum], for the high resolution modes: the analysis is defined exactly when
    the estimation of the gain is ([C37_estimate_hr] says when), and the coefficients can be
    coded on 23 bits. *)
Theorem C45_spectrum_hr nan dt sr bw nbytes pitch tns st x :
  let budget := spec_budget dt sr nbytes pitch tns in
  let gain g := Rpower 10 (IZR (g - gain_offset sr nbytes) / 28) in
  (0 <= dt <= 3)%Z -> (5 <= sr < 7)%Z -> bw_ok sr bw -> (1 <= nbytes <= 625)%Z -> tns_ok dt bw nbytes tns -> (0 < budget)%Z ->
  spec_ok st -> zlen x = c_ne dt sr ->
  Forall (fun v => is_finite v = true /\ Rabs (B2R v) <= 1480000 /\ Rabs (B2R v) <= 8388096 * gain 255%Z) x ->
  let estimate := estimate32 nan dt sr nbytes budget (next_off st) (gain_offset sr nbytes) x in
  (estimate = None -> spectrum32 nan dt sr bw nbytes pitch tns st x = None) /\
  (estimate <> None ->
   exists side nf us st', spectrum32 nan dt sr bw nbytes pitch tns st x = Some (side, nf, firstn (Z.to_nat (q_nq side)) us, st') /\
    (0 <= q_nq side <= c_ne dt sr)%Z /\ Z.even (q_nq side) = true /\ (0 <= q_gidx side < 256)%Z /\ (0 <= nf <= 7)%Z /\
    zlen us = c_ne dt sr /\ Forall (coded_f32 true) us /\
    Forall2 (fun v u => let y := B2R v / gain (q_gidx side) in
      Rabs (IZR u * bpow radix2 (-149) - y) <= / 2 ^ 16 * Rabs y + bpow radix2 (-146)) x us /\
    (exists n bits, (q_nq side <= n <= zlen us)%Z /\ spectrum_ok dt sr (map (quant rnd true) (firstn (Z.to_nat n) us)) /\
      compute_nbits dt sr nbytes (map (quant rnd true) (firstn (Z.to_nat n) us)) budget = (q_nq side, bits, q_lsb side)) /\
    spec_ok st').
Proof.
  cbv zeta. intros Hd Hs Hb Hn Ht Hbud Hst Hlen Hx. split.
  { intros E. unfold spectrum32, analyze32. rewrite E. reflexivity. }
  intros ED. destruct (lines_hr dt sr bw Hd Hs Hb) as (Hb0 & Hl).
  assert (Hr : is_hr sr = true) by (unfold is_hr, SRATE_48K_HR; lia).
  pose proof (budget_hr dt sr nbytes pitch tns Hn (tns_nbits_nonneg _ _ _ _ Ht)) as Hb5.
  destruct (analyze32_hr nan dt sr nbytes pitch tns st x Hd Hs ltac:(lia) (conj Hbud Hb5) Hst Hlen) as (side & y & us & st' & E & Hst' & Eu & Lu & A).
  { eapply Forall_impl; [|exact Hx]. intros v (V1 & V2 & V3). unfold in_range_hr, fin, val, x_bound, ten. auto. }
  { exact ED. }
  destruct A as (A1 & A2 & A3 & A4 & A5 & A6 & A7). unfold spectrum32. rewrite E. cbn [bind]. rewrite Eu. cbn [bind].
  destruct (C40_level dt bw (is_hr sr) us (q_nq side) Hd Hb0 ltac:(lia) ltac:(lia)) as (nf & En & Hnf & _).
  { intros k Hk. assert (In (znth us k 0%Z) us). { apply TableProofs.znth_In. lia. }
    rewrite Forall_forall in A5. specialize (A5 _ H). cbv beta in A5. assert (0 < one)%Z by reflexivity. change (2 ^ 23)%Z with 8388608%Z. lia. }
  rewrite En. cbn [bind]. exists side, nf, us, st'. split; [reflexivity|]. repeat match goal with |- _ /\ _ => split end; try assumption; try lia.
  eapply Forall2_mono; [|exact A6]. intros v u. cbv zeta. unfold val. set (g := ten (- (q_gidx side - gain_offset sr nbytes))).
  assert (G : B2R v / Rpower 10 (IZR (q_gidx side - gain_offset sr nbytes) / 28) = B2R v * g).
  { unfold Rdiv, g, ten. f_equal. rewrite <- Rpower_Ropp. f_equal. rewrite opp_IZR. lra. }
  rewrite G. assert (0 < g) by apply ten_pos. rewrite Rabs_mult, (Rabs_pos_eq g) by lra. auto.
Qed.
Print Assumptions C45_spectrum_hr.

(** 2.5 ms at 48 kHz, 75 bytes: all the coefficients are kept. *)
Definition ex_hr : list f32 := map (fun k => f32_of_int (((k * 7919 + 13) mod 2001 - 1000) * 40 / (k + 1))%Z) (map Z.of_nat (seq 0 120)).
Example C45_spectrum_hr_example :
  let tns := mkTns false [[]] in
  tns_ok 0 5 75 tns /\ bw_ok 5 5 /\ (0 < spec_budget 0 5 75 false tns)%Z /\ spec_ok spec_init /\ zlen ex_hr = c_ne 0 5 /\
  forallb (fun v => is_finite v && Bleb (Babs v) (f32_of_int 40000))%bool ex_hr = true /\
  match spectrum32 0 0 5 5 75 false tns spec_init ex_hr with
  | Some (side, nf, us, st) => (q_nq side =? 120)%Z && negb (q_lsb side) && (q_gidx side =? 207)%Z && (nf =? 6)%Z && (zlen us =? 120)%Z && (s_spare st =? -56)%Z
  | None => false
  end = true.
Proof.
  cbv zeta. split; [split; [reflexivity|split; [reflexivity|repeat constructor; cbv; discriminate]]|]. split; [split; [lia|reflexivity]|]. split; [reflexivity|]. split; [exact spec_init_ok|].
  split; [reflexivity|]. split; vm_compute; reflexivity.
Qed.
