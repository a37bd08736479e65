(** * C41: silence, and the frames without any coefficient (C24) *)
From Coq Require Import ZArith List Bool Lia ZifyBool.
From Verif Require Import Base BaseProofs BitsModel BitsWriteSafe ConfigModel FloatModel SideModel SideSpec SpecModel SpecSpec.
From Verif Require Import ResidualModel ResidualSpec FrameModel FrameSpec FrameProofs SilenceProofs BudgetModel BudgetSpec.
From Verif Require Import GainModel GainProofs GainFloat P_Gain NoiseModel NoiseSpec NoiseHoles P_Noise.
Import ListNotations.
Local Open Scope Z_scope.

(** The frame [f], as the decoder sees it: a count of 0 coefficient cannot be written, it is
    read as 2. *)
Definition at_least_two (f : frame) : frame :=
  mkFrame (f_bw f) (mkSide 2 (q_lsb (f_side f)) (q_gidx (f_side f))) (f_tns f) (f_pitch f) (f_sns f)
    (f_ltpf f) (f_nf f) [0; 0].

(** C24: a frame without any coefficient coded, and without temporal noise shaping, always
    fits; the decoder gets its side data and two null coefficients, out of a frame where
    none was written. With a filter the decoder may fail ([C24_empty_spectrum_refuted]). *)
Theorem C24_empty_spectrum hw buf dt sr f : bytes buf -> 20 <= zlen buf ->
  f_x f = [] -> q_nq (f_side f) = 0 -> Forall (fun c => c = []) (t_filters (f_tns f)) ->
  frame_ok dt sr (zlen buf) (at_least_two f) ->
  w_check (put_frame (w_setup buf) dt sr (zlen buf) f) = 0 /\
  zlen (encode buf dt sr f) = zlen buf /\
  exists d, decode true hw (encode buf dt sr f) dt sr = Some d /\ same_side (at_least_two f) d /\ d_x d = [0; 0] /\ d_seed d = 0.
Proof.
  intros Hb HL Hx Hq Ht H. pose proof H as (_ & (Hd & Hs & _) & _).
  destruct (silence_round_trip hw buf dt sr f Hb HL Hd Hs Hx Hq Ht H) as (C & L & d & r & E & _ & S1 & S2 & S3).
  split; [exact C|]. split; [exact L|]. exists d. unfold decode. rewrite L, E. auto.
Qed.
Print Assumptions C24_empty_spectrum.

(** The square of the float 1e-10, under which the energies are not distinguished (src/spec.c
    line 141, src/fastmath.h line 209). *)
Definition bits_1e_20 : Z := 0x1e3ce509.

Lemma znth_repeat_0 n k : znth (repeat 0 n) k 0 = 0.
Proof.
  unfold znth. destruct (k <? 0); [reflexivity|]. set (i := Z.to_nat k). clearbody i. revert i.
  induction n as [|n IH]; intros [|i]; cbn; auto.
Qed.

Lemma silent_noise dt bw hr n : 0 <= dt <= 3 -> 0 <= bw -> band_lines dt bw <= Z.of_nat n ->
  estimate_noise dt bw hr (repeat 0 n) 0 = Some 7.
Proof.
  intros Hd Hb Hl. assert (ZL : zlen (repeat 0 n) = Z.of_nat n) by (unfold zlen; rewrite repeat_length; reflexivity).
  destruct (C40_level dt bw hr (repeat 0 n) 0 Hd Hb ltac:(lia) ltac:(lia)) as (nf & E & R & N1 & N2).
  { intros k _. rewrite znth_repeat_0. change (Z.abs 0) with 0. apply Z.mul_nonneg_nonneg; [lia|discriminate]. }
  rewrite E. f_equal. set (l := holes _ _ _ _ _) in *. clearbody l.
  assert (D : l = [] \/ l <> []) by (destruct l; [left; reflexivity|right; discriminate]). destruct D as [D|D]; [auto|].
  destruct (N2 D) as (c & C1 & C2).
  { intros k _. rewrite znth_repeat_0. discriminate. }
  assert (S0 : fold_right Z.add 0 (map (fun k => Z.abs (znth (repeat 0 n) k 0)) l) = 0).
  { clear. induction l as [|k l IH]; [reflexivity|]. cbn [map fold_right]. rewrite IH, znth_repeat_0. reflexivity. }
  rewrite S0 in C2. rewrite Z.mul_0_r, Z.sub_0_r in C2.
  assert (P : 0 < zlen l * one). { apply Z.mul_pos_pos; [|reflexivity]. destruct l; [congruence|]. rewrite zlen_cons. unfold zlen. lia. }
  assert (c = 0).
  { rewrite Z.abs_mul in C2. rewrite (Z.abs_eq (zlen l * one)) in C2 by lia. set (N := zlen l * one) in *. clearbody N. nia. }
  subst c. unfold clip in C1. lia.
Qed.

Lemma silent_analysis dt sr nbytes budget nbits e0 n : 0 <= dt <= 3 -> 0 <= sr <= 6 -> 0 <= nbytes ->
  Z.abs nbits <= 6000 -> 0 <= budget <= 5000 -> Z.of_nat n <= 240 -> db_q16 bits_1e_20 = Some e0 ->
  spec_analyze dt sr nbytes budget nbits (repeat e0 n) (fits_limit sr 0) true (fun _ => []) = Some (0, 0, false).
Proof.
  intros Hd Hs Hb Hn Hbu Hl He.
  assert (E0 : db_q16 bits_1e_20 = Some (-6553639)) by (vm_compute; reflexivity).
  rewrite E0 in He. injection He as <-.
  assert (Hi : gain_inputs sr nbytes nbits budget (repeat (-6553639) n)).
  { split; [lia|]. split; [lia|]. split; [lia|]. split; [lia|].
    split; [unfold zlen; rewrite repeat_length; lia|]. intros e H. apply repeat_spec in H. subst e. vm_compute. split; discriminate. }
  pose proof (gain_offset_range sr nbytes ltac:(lia) Hb) as Ho.
  destruct (estimate_ok sr nbytes nbits budget _ (fits_limit sr 0) true Hi) as [[V _]|(_ & g & gm & r & E & R1 & R2 & M1 & M2 & P)]; cbv zeta in *.
  - exfalso. pose proof (cost_bound ((127 - gain_offset sr nbytes) * k_20_28) (repeat (-6553639) n) (-6553639)) as B.
    specialize (B ltac:(intros e H; apply repeat_spec in H; lia)).
    replace (zlen (repeat (-6553639) n)) with (Z.of_nat n) in B by (unfold zlen; rewrite repeat_length; reflexivity).
    assert (M : cost1 (-6553639 - (127 - gain_offset sr nbytes) * k_20_28) <= cost1 (-6553639 - (127 - 255) * k_20_28)).
    { apply cost1_mono. unfold k_20_28. lia. }
    pose proof (cost1_pos (-6553639 - (127 - gain_offset sr nbytes) * k_20_28)) as C0.
    change (cost1 (-6553639 - (127 - 255) * k_20_28)) with 176947 in M.
    unfold INT_MAX in V. nia.
  - set (g_off := gain_offset sr nbytes) in *.
    assert (F : forall x, -255 <= x <= 255 -> fits_limit sr 0 x = true).
    { intros x Hx. apply (fits_le sr 0 (-255)); [lia|lia|]. unfold fits_limit. destruct (is_hr sr); vm_compute; reflexivity. }
    assert (Egm : gm = - g_off). { destruct (Z.eq_dec gm (- g_off)) as [D|D]; [exact D|]. destruct M2 as [M2|M2]; [exact M2|]. rewrite F in M2 by lia. discriminate. }
    assert (Eg : g = gm). { destruct P as [P|[P _]]; [exact P|discriminate]. }
    unfold spec_analyze. fold g_off. rewrite E. cbn [bind]. subst g.
    assert (Ec : forall b, 0 <= b -> compute_nbits dt sr nbytes [] b = (0, 0, false)).
    { intros b B. unfold compute_nbits. destruct (resolve_modes sr nbytes) as [lm hi]. cbn [nbits_pairs].
      set (bb := if b =? 0 then INT_MAX else b * 2048). assert (0 <= bb) by (unfold bb, INT_MAX; destruct (b =? 0); lia).
      replace (bb <? 0 + 0 * 2048) with false by lia. rewrite andb_false_r. destruct (INT_MAX <=? bb); reflexivity. }
    rewrite (Ec 0) by lia.
    destruct (adjust_ok dt sr (g_off + gm) 0 budget (g_off + gm)) as (a & Ea & Ra & _ & Rb); try lia.
    rewrite Ea. cbn [bind]. rewrite Ec by lia. assert (a = 0) by (specialize (Rb ltac:(lia)); lia). subst a gm. do 3 f_equal. lia.
Qed.

(** C41: silence. From a null spectrum, whatever the configuration, the size of the frame, the
    bits spared before ([nbits]) and the other data of the frame (bandwidth, envelope, pitch),
    as long as no temporal noise shaping is in use, the analysis is defined, the frame fits,
    and the spectrum decoded is null: no noise comes in. *)
Theorem C41_silence hw buf dt sr bw tns pitch sns ltpf nbits :
  let nbytes := zlen buf in let ne := Z.to_nat (c_ne dt sr) in
  let budget := spec_budget dt sr nbytes pitch tns in
  bytes buf -> 20 <= nbytes <= 625 -> 0 <= dt <= 3 -> Z.abs nbits <= 6000 ->
  bw_ok sr bw -> tns_ok dt bw nbytes tns -> Forall (fun c => c = []) (t_filters tns) -> sns_ok sns -> (pitch = true -> ltpf_ok ltpf) ->
  exists e0 g_idx nq lsb nf, db_q16 bits_1e_20 = Some e0 /\
    spec_analyze dt sr nbytes budget nbits (repeat e0 (ne / 4)) (fits_limit sr 0) true (fun _ => []) = Some (g_idx, nq, lsb) /\
    estimate_noise dt bw (is_hr sr) (repeat 0 ne) nq = Some nf /\
    let f := mkFrame bw (mkSide nq lsb g_idx) tns pitch sns ltpf nf (firstn (Z.to_nat nq) (repeat 0 ne)) in
    w_check (put_frame (w_setup buf) dt sr nbytes f) = 0 /\
    exists d, decode true hw (encode buf dt sr f) dt sr = Some d /\ spec_finish dt sr nbytes d = Some (repeat 0 ne).
Proof.
  intros nbytes ne budget Hb Hn Hd Hnb Hbw Htn Hf Hsn Hlt.
  pose proof Hbw as [Hs _]. destruct (band_in dt sr bw Hd Hbw) as [Bw0 Bw].
  assert (NE : 20 <= c_ne dt sr <= 960 /\ c_ne dt sr mod 2 = 0).
  { assert (D : forallb (fun dt => forallb (fun sr => (20 <=? c_ne dt sr) && (c_ne dt sr <=? 960) && (c_ne dt sr mod 2 =? 0)) [0;1;2;3;4;5;6]) [0;1;2;3] = true) by (vm_compute; reflexivity).
    rewrite forallb_forall in D. specialize (D dt ltac:(cbn [In]; lia)). cbv beta in D. rewrite forallb_forall in D. specialize (D sr ltac:(cbn [In]; lia)). cbv beta in D. lia. }
  assert (BU : 0 <= budget <= 5000).
  { assert (D : forallb (fun dt => forallb (fun sr => (nbits_nq dt sr <=? 9) && (4 <=? nbits_nq dt sr) && (0 <=? bw_nbits sr) && (bw_nbits sr <=? 3)) [0;1;2;3;4;5;6]) [0;1;2;3] = true) by (vm_compute; reflexivity).
    rewrite forallb_forall in D. specialize (D dt ltac:(cbn [In]; lia)). cbv beta in D. rewrite forallb_forall in D. specialize (D sr ltac:(cbn [In]; lia)). cbv beta in D.
    assert (T : 0 <= tns_nbits tns <= 2).
    { destruct Htn as (_ & T & _). unfold tns_nbits.
      destruct (t_filters tns) as [|a [|b [|c r]]]; [destruct (_ && _) in T; discriminate|..| |destruct (_ && _) in T; discriminate];
        repeat match goal with H : Forall _ (_ :: _) |- _ => let X := fresh in pose proof (Forall_inv H) as X; cbv beta in X; subst; apply Forall_inv_tail in H end;
        vm_compute; split; discriminate. }
    unfold budget, spec_budget, nbits_ac, ltpf_nbits, sns_nbits. unfold b2z. 
    assert (0 <= (nbytes - 1) / 160) by (apply Z.div_pos; lia).
    destruct (is_hr sr), pitch; lia. }
  destruct (db_q16 bits_1e_20) as [e0|] eqn:Ee; [|vm_compute in Ee; discriminate].
  exists e0, 0, 0, false, 7. split; [reflexivity|]. split.
  { apply silent_analysis; try assumption; try lia. assert ((ne / 4 <= 240)%nat) by (apply Nat.div_le_upper_bound; unfold ne; lia). lia. }
  split. { apply silent_noise; [exact Hd|exact Bw0|]. unfold ne. rewrite Z2Nat.id by lia. exact Bw. }
  cbv zeta. change (firstn (Z.to_nat 0) (repeat 0 ne)) with (@nil Z). set (f := mkFrame _ _ _ _ _ _ _ _).
  assert (H : frame_ok dt sr nbytes (at_least_two f)).
  { unfold frame_ok, at_least_two, f. cbn [f_bw f_side f_tns f_pitch f_sns f_ltpf f_nf f_x q_nq q_lsb q_gidx].
    split; [exact Hbw|]. split; [unfold side_ok; cbn [q_nq q_gidx]; split; [exact Hd|]; split; [exact Hs|]; split; [lia|]; split; [reflexivity|lia]|].
    split; [exact Htn|]. split; [exact Hsn|]. split; [exact Hlt|]. split; [lia|]. split; [reflexivity|].
    assert (C : coded_f32 (is_hr sr) 0) by (destruct (is_hr sr); split; vm_compute; reflexivity).
    split; [constructor; [exact C|constructor; [exact C|constructor]]|].
    intros _. repeat constructor; vm_compute; discriminate. }
  destruct (C24_empty_spectrum hw buf dt sr f Hb ltac:(fold nbytes; lia) eq_refl eq_refl Hf H) as (C & L & d & E & S & Ex & Es).
  split; [exact C|]. exists d. split; [exact E|].
  destruct S as (S1 & S2 & _ & _ & _ & S6). unfold spec_finish. rewrite Ex, S1, S2, S6. unfold at_least_two, f. cbn [f_bw f_side f_nf q_nq q_lsb q_gidx].
  pose proof (gain_offset_range sr nbytes ltac:(lia) ltac:(lia)) as Ho.
  destruct (gain_float_range (0 - gain_offset sr nbytes) ltac:(lia)) as (a & Ea & _). rewrite Ea. cbn [bind].
  assert (U : unquantize dt sr (gain_float a) [0; 0] = repeat 0 ne).
  { unfold unquantize. assert (F0 : fmul 0 (gain_float a) = 0) by reflexivity. cbn [map]. rewrite F0. change (zlen [0; 0]) with 2.
    unfold ne. replace (Z.to_nat (c_ne dt sr)) with (2 + Z.to_nat (c_ne dt sr - 2))%nat by lia. reflexivity. }
  rewrite U. unfold read.
  assert (I : forall k, k = 0 \/ k = 1 -> inb k (zlen (repeat 0 ne)) = true).
  { intros k Hk. unfold inb, zlen. rewrite repeat_length. unfold ne. lia. }
  rewrite (I 0), (I 1) by auto. cbn [bind]. rewrite !znth_repeat_0. reflexivity.
Qed.
Print Assumptions C41_silence.

(** 10 ms at 48 kHz in 20 bytes with a pitch, 2.5 ms at 96 kHz in 60 bytes. *)
Definition ex_silence (hr : bool) : frame :=
  if hr then mkFrame 6 (mkSide 0 false 0) (mkTns false [[]]) false (mkSns 3 17 3 6 777 0 0 0) (mkLtpf 0 0) 7 []
  else mkFrame 4 (mkSide 0 false 0) (mkTns true [[]; []]) true (mkSns 3 17 0 1 12345 1 5 1) (mkLtpf 1 300) 7 [].
Lemma ex_silence_ok : frame_ok 3 4 20 (at_least_two (ex_silence false)) /\ frame_ok 0 6 60 (at_least_two (ex_silence true)).
Proof.
  split; unfold frame_ok, at_least_two, ex_silence; cbn [f_bw f_side f_tns f_sns f_pitch f_ltpf f_nf f_x q_nq q_lsb q_gidx].
  - split; [unfold bw_ok; change (is_hr 4) with false; cbv iota; lia|].
    split; [unfold side_ok; cbn [q_nq q_gidx]; change (c_ne 3 4) with 400; repeat split; lia|].
    split; [split; [reflexivity|]; split; [reflexivity|]; repeat constructor; vm_compute; discriminate|].
    split; [unfold sns_ok; cbn; lia|]. split; [intros _; unfold ltpf_ok; cbn; lia|]. split; [lia|]. split; [reflexivity|].
    split; [repeat constructor|]. intros H. discriminate.
  - split; [unfold bw_ok; change (is_hr 6) with true; cbv iota; lia|].
    split; [unfold side_ok; cbn [q_nq q_gidx]; change (c_ne 0 6) with 240; repeat split; lia|].
    split; [split; [reflexivity|]; split; [reflexivity|]; repeat constructor; vm_compute; discriminate|].
    split; [unfold sns_ok; repeat split; try (vm_compute; congruence); [left; reflexivity|discriminate..]|].
    split; [discriminate|]. split; [lia|]. split; [reflexivity|].
    split; [repeat constructor|]. intros _. repeat constructor; vm_compute; discriminate.
Qed.
Example C24_empty_spectrum_example :
  option_map d_x (decode true (fun v => v) (encode (repeat 7 20) 3 4 (ex_silence false)) 3 4) = Some [0; 0] /\
  option_map d_x (decode true (fun v => v) (encode (repeat 7 60) 0 6 (ex_silence true)) 0 6) = Some [0; 0].
Proof. vm_compute. split; reflexivity. Qed.
Example C41_example : spec_budget 3 4 20 true (mkTns true [[]; []]) = 84 /\
  spec_analyze 3 4 20 84 84 (repeat (-6553639) 100) (fits_limit 4 0) true (fun _ => []) = Some (0, 0, false) /\
  option_map (fun d => spec_finish 3 4 20 d) (decode true (fun v => v) (encode (repeat 7 20) 3 4 (ex_silence false)) 3 4) = Some (Some (repeat 0 400)).
Proof. split; [reflexivity|]. split; vm_compute; reflexivity. Qed.
