(** * Frames without any coefficient coded
    Nothing is written by the arithmetic coder; the decoder reads two coefficients, null. *)
From Coq Require Import ZArith List Bool Lia ZifyBool.
From Verif Require Import Base BaseProofs BitsModel BitsWriteSafe BitsAbstract BitsWriteSim.
From Verif Require Import BitsReadSim BitsReadSafe BitsRoundTrip ConfigModel.
From Verif Require Import SideModel SideSpec SideProofs SpecModel SpecSpec SpecProofs SpecFrame FrameBase.
From Verif Require Import FloatModel FloatProofs ResidualModel ResidualSpec ResidualProofs ResidualInst ResidualModes.
From Verif Require Import FrameModel FrameSpec FrameProofs.
Import ListNotations.
Local Open Scope Z_scope.

(** ** Only raw bits *)
Lemma bits_only_a ops : forall a, Forall (fun o => is_bits o = true) ops ->
  let a' := fold_left astep ops a in
  a_B a' = a_B a /\ a_R a' = a_R a /\ a_k a' = a_k a /\ a_pos a' = a_pos a + wops_bits ops.
Proof.
  induction ops as [|o ops IH]; intros a H; cbv zeta; cbn [fold_left].
  - cbn. repeat split; lia.
  - pose proof (Forall_inv H) as Ho. destruct o as [v n|m s]; [|discriminate].
    destruct (IH (astep a (PutBits v n)) (Forall_inv_tail H)) as (I1 & I2 & I3 & I4).
    cbn [astep a_bits a_B a_R a_k a_pos] in *. rewrite I1, I2, I3, I4.
    cbn [wops_bits fold_right wop_bits]. fold (wops_bits ops). repeat split; lia.
Qed.

Lemma bits_only_w L ops : forall w, Forall op_ok ops -> Forall (fun o => is_bits o = true) ops -> WB 65536 L w ->
  same_ac w (fold_left wstep ops w) /\ w_fw (fold_left wstep ops w) = w_fw w.
Proof.
  induction ops as [|o ops IH]; intros w H1 H2 HW; cbn [fold_left]; [split; [repeat split|reflexivity]|].
  pose proof (Forall_inv H2) as Ho. pose proof (Forall_inv H1) as Ho1. destruct o as [v n|m s]; [|discriminate].
  cbn [op_ok] in Ho1. cbn [wstep].
  destruct (put_bits_WB _ _ w v n ltac:(lia) HW ltac:(lia)) as (H' & HC & Hf & _).
  destruct (IH _ (Forall_inv_tail H1) (Forall_inv_tail H2) H') as [I1 I2].
  split; [unfold same_ac in *; intuition congruence|congruence].
Qed.

(** With the space, the writer follows the abstract state. *)
Lemma bits_only_sim L ops : forall w a, Forall op_ok ops -> Forall (fun o => is_bits o = true) ops ->
  WSim L w a -> wops_bits ops <= a_left L a -> WSim L (fold_left wstep ops w) (fold_left astep ops a).
Proof.
  induction ops as [|o ops IH]; intros w a H1 H2 HW Hl; cbn [fold_left]; [exact HW|].
  pose proof (Forall_inv H2) as Ho. pose proof (Forall_inv H1) as Ho1. destruct o as [v n|m s]; [|discriminate].
  cbn [wops_bits fold_right wop_bits] in Hl. fold (wops_bits ops) in Hl.
  pose proof (wops_bits_nonneg _ (Forall_inv_tail H1)) as Hn.
  assert (E : a_left L (astep a (PutBits v n)) = a_left L a - n)
    by (unfold a_left; cbn [astep a_bits a_pos a_k a_R]; lia).
  apply IH; [exact (Forall_inv_tail H1)|exact (Forall_inv_tail H2)| |lia].
  apply wstep_room; [exact Ho1|exact HW|lia].
Qed.

(** The frame is then the raw bits. *)
Lemma bits_only_frame buf ops : bytes buf -> Forall op_ok ops -> Forall (fun o => is_bits o = true) ops ->
  wops_bits ops + 2 <= 8 * zlen buf ->
  let w := fold_left wstep ops (w_setup buf) in
  0 <= w_bits_left w /\ bval (w_buf (flush_bits w)) = a_W (fold_left astep ops a_init) /\
  zlen (w_buf (flush_bits w)) = zlen buf /\ bytes (w_buf (flush_bits w)).
Proof.
  intros Hb H1 H2 Hl w. pose proof (wops_bits_nonneg _ H1) as Hnn.
  assert (E0 : a_left (zlen buf) a_init = 8 * zlen buf - 2) by (unfold a_left; cbn; lia).
  pose proof (bits_only_sim _ _ _ _ H1 H2 (WSim_init buf Hb) ltac:(lia)) as HW. fold w in HW.
  destruct (bits_only_a ops a_init H2) as (B1 & B2 & B3 & B4). cbv zeta in *.
  assert (Hw : 0 <= w_bits_left w).
  { rewrite (WSim_left _ _ _ HW). unfold a_left in *. rewrite B2, B3, B4. lia. }
  split; [exact Hw|].
  destruct (writer_sim buf ops Hb H1 Hw) as (_ & _ & Hz & Hby). fold w in Hz, Hby.
  split; [|split; assumption].
  destruct (bits_only_w _ ops _ H1 H2 (w_setup_WB buf Hb)) as [C1 C2]. fold w in C1, C2.
  destruct (asteps_ok ops _ H1 a_init_ok) as (_ & _ & _ & _ & _ & HW0). rewrite B4 in HW0.
  change (a_pos a_init) with 0 in HW0, B4. rewrite Z.add_0_l in HW0, B4.
  unfold flush_bits. cbv zeta.
  destruct (flush_pad_sim _ w _ HW Hw) as (H3 & C3 & F3 & fwd & rest & E & Ef & HWr & HI).
  set (w2 := accu_flush _) in *. clearbody w2.
  pose proof (ac_inv_same _ _ _ _ _ C3 F3 HI) as HI2. rewrite B1 in HI2. change (a_B a_init) with 0 in HI2.
  assert (S : same_ac (w_setup buf) w2) by (unfold same_ac in *; intuition congruence).
  destruct S as (S1 & S2 & S3 & S4 & S5). unfold w_setup in S1, S2, S3, S4, S5. wproj.
  assert (F2 : w_fw w2 = 0) by (rewrite F3, C2; reflexivity).
  assert (Efw : fwd = []). { rewrite C2 in Ef. apply zlen_0. exact Ef. }
  subst fwd. cbn [app] in E.
  assert (Ek : w_k w2 = 0). { unfold w_k. rewrite F2, S3, S5. reflexivity. }
  rewrite ac_terminate_end, S1, S2. change (terminate_value 0 (2 ^ 24 - 1)) with (1, 0, false).
  cbv iota. rewrite S3, S4, S5. change (8 <? 1) with false. cbv iota zeta.
  change (Z.lor 0 (b2z false)) with 0.
  set (w3 := w_set_ac w2 0 _ _ _ _).
  assert (H4 : WB 65536 (zlen buf) w3).
  { unfold w3. destruct H3. constructor; wproj; auto; try lia. }
  destruct C1 as (C1a & C1b & _). rewrite C1b in HI2. unfold w_setup in HI2. wproj.
  assert (Ek3 : w_k w3 = 0). { unfold w3, w_k. wproj. rewrite F2. reflexivity. }
  assert (HI3 : ac_inv [] w3 (2 ^ (24 - 1)) 0).
  { unfold ac_inv. rewrite Ek3. unfold w3. wproj. cbn. repeat split; try lia. }
  destruct (ac_last_sim _ _ w3 1 [] rest [] 0 (a_W (fold_left astep ops a_init)) H4) as (c & F & Fc).
  - exact E.
  - unfold w3. wproj. rewrite F2. reflexivity.
  - exact HI3.
  - reflexivity.
  - lia.
  - exact HWr.
  - rewrite Ek3. lia.
  - rewrite Ek3. split; [lia|]. eapply Z.lt_le_trans; [apply HW0|]. apply Z.pow_le_mono_r; lia.
  - assert (c = 0) by lia. subst c. rewrite F. lia.
Qed.

(** One more symbol, the first of its model, can be read in such a frame. *)
Lemma first_symbol_fin L ops m W : Forall op_ok ops -> Forall (fun o => is_bits o = true) ops ->
  op_ok (PutSym m 0) -> wops_bits ops + 20 <= 8 * L ->
  W = a_W (fold_left astep ops a_init) ->
  let a := fold_left astep (ops ++ [PutSym m 0]) a_init in
  Fin W L a /\ 0 <= a_left L a.
Proof.
  intros H1 H2 Hm HL EW. rewrite fold_left_app. cbn [fold_left].
  set (a := fold_left astep ops a_init) in *.
  destruct (bits_only_a ops a_init H2) as (B1 & B2 & B3 & B4). fold a in B1, B2, B3, B4.
  change (a_B a_init) with 0 in B1. change (a_R a_init) with (2 ^ 24 - 1) in B2.
  change (a_k a_init) with 0 in B3. change (a_pos a_init) with 0 in B4. rewrite Z.add_0_l in B4.
  pose proof (asteps_ok ops _ H1 a_init_ok) as Ha. fold a in Ha.
  pose proof (astep_ok a _ Hm Ha) as Ha2.
  destruct Hm as (Hwf & Hs & Hr).
  pose proof (wops_bits_nonneg _ H1) as Hn.
  assert (HS0 : sym_low m 0 = 0) by apply Hwf.
  pose proof Ha as (_ & _ & _ & _ & _ & HW). rewrite B4 in HW. rewrite <- EW in HW.
  cbn [astep] in *. unfold a_sym in *. cbv zeta in *. rewrite B1, B2, B3, B4, HS0 in *.
  change ((2 ^ 24 - 1) / 1024) with 16383 in *. change (16383 * 0) with 0 in *. change (0 + 0) with 0 in *. rewrite !Z.mul_0_l in *.
  set (R1 := 16383 * sym_range m 0) in *.
  assert (HR1 : 16383 <= R1 < 2 ^ 24).
  { unfold R1. destruct (wf_model_bounds m 0 Hwf Hs) as (_ & _ & Hhi). rewrite HS0 in Hhi. lia. }
  destruct (jshift_spec R1 ltac:(lia)) as [J1 J2].
  assert (J3 : jshift R1 <= 1) by (unfold jshift; replace (R1 <? 256) with false by lia; destruct (R1 <? 65536); lia).
  assert (HP : 2 ^ wops_bits ops * 2 ^ 11 <= 2 ^ (8 * L))
    by (rewrite <- Z.pow_add_r by lia; apply Z.pow_le_mono_r; lia).
  split.
  - constructor; cbn [a_B a_R a_k a_pos a_W].
    + exact Ha2.
    + split; [lia|]. eapply Z.lt_le_trans; [apply HW|]. lia.
    + lia.
    + lia.
    + rewrite Z.add_0_l. rewrite <- Z.mul_assoc. pose proof (scale_256 L 0 (jshift R1) ltac:(lia) ltac:(lia)) as E.
      rewrite Z.add_0_l in E. rewrite Z.add_0_l. rewrite E. rewrite Z.sub_0_r.
      change (2 ^ 24) with (2 ^ 11 * 2 ^ 13) in *. nia.
    + lia.
    + rewrite <- EW. apply Z.mod_small. exact HW.
  - unfold a_left. cbn [a_B a_R a_k a_pos a_W].
    pose proof (range_bits_bounds _ J2) as Hrb.
    destruct (Z.eq_dec (jshift R1) 0) as [E0|]; [rewrite E0 in *|]; lia.
Qed.

(** ** The frame *)

(** What is written before the coefficients. *)
Definition plain_ops (dt sr : Z) (f : frame) : list wop :=
  bw_ops sr (f_bw f) ++ side_ops dt sr (f_side f) ++ tns_ops (f_tns f) ++
  PutBits (b2z (f_pitch f)) 1 :: sns_ops (f_sns f) ++ pitch_ops f ++ [PutBits (f_nf f) 3].

(** The frame that the decoder sees. *)
Definition two_zeros (f : frame) : frame :=
  mkFrame (f_bw f) (mkSide 2 (q_lsb (f_side f)) (q_gidx (f_side f))) (f_tns f) (f_pitch f) (f_sns f)
    (f_ltpf f) (f_nf f) [0; 0].

Lemma put_res_nil n fl lim nb w : forall off, put_res_iter n fl lim off nb [] w = w.
Proof.
  induction n as [|n IH]; intros off; cbn [put_res_iter]; [reflexivity|].
  destruct (nb <=? 0); [reflexivity|]. cbn [put_res_pass]. apply IH.
Qed.
Lemma get_res_zeros n fl nb r : forall o1 o2, get_res_iter n fl o1 o2 nb [0; 0] r = ([0; 0], r).
Proof.
  induction n as [|n IH]; intros o1 o2; cbn [get_res_iter]; [reflexivity|].
  destruct (nb <=? 0) eqn:E; [reflexivity|]. cbn [get_res_pass]. rewrite E. cbn [Z.eqb]. apply IH.
Qed.

Lemma put_frame_plain w dt sr nbytes f : f_x f = [] -> q_nq (f_side f) = 0 -> sns_ok (f_sns f) ->
  put_frame w dt sr nbytes f = fold_left wstep (plain_ops dt sr (two_zeros f)) w.
Proof.
  intros Hx Hq Hs. unfold put_frame, put_main, f_q. rewrite Hx. cbn [map]. cbv zeta.
  unfold put_quantized, put_residual. cbn [put_pairs]. rewrite put_res_nil.
  assert (E : forall (w : wst) n, put_lsb w n [] = w) by reflexivity. rewrite E.
  match goal with |- (if _ then ?a else _) = _ => replace (if q_lsb (f_side f) then a else a) with a by (destruct (q_lsb (f_side f)); reflexivity) end.
  unfold plain_ops. rewrite put_bw_ops, put_side_ops, put_tns_ops. rewrite put_sns_ops by apply Hs.
  rewrite !fold_left_app. cbn [fold_left]. rewrite !fold_left_app. cbn [fold_left].
  assert (E2 : forall w, (if f_pitch f then put_ltpf w (f_ltpf f) else w) = fold_left wstep (pitch_ops (two_zeros f)) w).
  { intros v. unfold pitch_ops. cbn [f_pitch f_ltpf two_zeros]. destruct (f_pitch f); [apply put_ltpf_ops|reflexivity]. }
  rewrite E2. cbn [wstep f_bw f_side f_tns f_pitch f_sns f_nf two_zeros]. unfold put_bit.
  unfold side_ops. cbn [q_nq q_lsb q_gidx]. rewrite Hq. reflexivity.
Qed.

Lemma main_ops_zeros dt sr nbytes f :
  exists m, op_ok (PutSym m 0) /\ main_ops dt sr nbytes (two_zeros f) = plain_ops dt sr (two_zeros f) ++ [PutSym m 0].
Proof.
  assert (E : quantized_ops dt sr nbytes (f_q sr (two_zeros f)) (q_lsb (f_side (two_zeros f))) =
    [PutSym (spec_model (lookup (high_rate sr nbytes) (half (c_ne dt sr) 0) 0) 0) 0]).
  { unfold f_q. cbn [f_x f_side q_lsb two_zeros map].
    assert (Eq : quant rnd (is_hr sr) 0 = 0) by (destruct (is_hr sr); vm_compute; reflexivity). rewrite Eq.
    unfold quantized_ops. cbn [pairs_w]. rewrite app_nil_r. destruct (q_lsb (f_side f)); reflexivity. }
  eexists. split.
  - assert (O := quantized_ops_ok dt sr nbytes (f_q sr (two_zeros f)) (q_lsb (f_side (two_zeros f)))).
    rewrite E in O. exact (Forall_inv O).
  - unfold main_ops, plain_ops, coeffs_ops. rewrite E. rewrite <- !app_assoc. cbn [app]. rewrite <- !app_assoc. reflexivity.
Qed.

Lemma plain_ops_bits dt sr f : 0 <= dt <= 3 -> 0 <= sr <= 6 -> Forall (fun c => c = []) (t_filters (f_tns f)) ->
  zlen (t_filters (f_tns f)) <= 2 ->
  Forall (fun o => is_bits o = true) (plain_ops dt sr f) /\ wops_bits (plain_ops dt sr f) <= 100.
Proof.
  intros Hd Hs Ht Hl. unfold plain_ops.
  assert (T : Forall (fun o => is_bits o = true) (tns_ops (f_tns f)) /\ wops_bits (tns_ops (f_tns f)) = zlen (t_filters (f_tns f))).
  { unfold tns_ops. clear Hl. induction Ht as [|c cs Hc _ [I1 I2]]; [split; [constructor|reflexivity]|].
    subst c. cbn [flat_map filter_ops app]. split; [constructor; [reflexivity|exact I1]|].
    cbn [wops_bits fold_right wop_bits]. fold (wops_bits (flat_map (filter_ops (t_weighting (f_tns f))) cs)).
    rewrite I2, zlen_cons. lia. }
  assert (B : Forall (fun o => is_bits o = true) (bw_ops sr (f_bw f)) /\ wops_bits (bw_ops sr (f_bw f)) <= 3).
  { unfold bw_ops. sr_cases sr Hs; cbn; split; repeat constructor; lia. }
  assert (N : nbits_nq dt sr <= 9).
  { assert (D : forallb (fun dt => forallb (fun sr => nbits_nq dt sr <=? 9) [0;1;2;3;4;5;6]) [0;1;2;3] = true) by (vm_compute; reflexivity).
    rewrite forallb_forall in D. specialize (D dt ltac:(cbn; lia)). rewrite forallb_forall in D. specialize (D sr ltac:(cbn; lia)). lia. }
  assert (P : Forall (fun o => is_bits o = true) (pitch_ops f) /\ wops_bits (pitch_ops f) <= 10).
  { unfold pitch_ops, ltpf_ops. destruct (f_pitch f); cbn; split; repeat constructor; lia. }
  split.
  - repeat first [apply Forall_app; split|apply Forall_cons]; try apply T; try apply B; try apply P; repeat constructor.
  - rewrite !wops_bits_app. destruct T as [_ ->], B as [_ B], P as [_ P].
    change (PutBits (b2z (f_pitch f)) 1 :: sns_ops (f_sns f) ++ pitch_ops f ++ [PutBits (f_nf f) 3])
      with ([PutBits (b2z (f_pitch f)) 1] ++ sns_ops (f_sns f) ++ pitch_ops f ++ [PutBits (f_nf f) 3]).
    rewrite !wops_bits_app. unfold side_ops, sns_ops. cbv zeta. cbn [wops_bits fold_right wop_bits]. 
    set (x := s_shape (f_sns f) / 2). lia.
Qed.

Lemma silence_round_trip hw buf dt sr f : bytes buf -> 20 <= zlen buf -> 0 <= dt <= 3 -> 0 <= sr <= 6 ->
  f_x f = [] -> q_nq (f_side f) = 0 -> Forall (fun c => c = []) (t_filters (f_tns f)) ->
  frame_ok dt sr (zlen buf) (two_zeros f) ->
  w_check (put_frame (w_setup buf) dt sr (zlen buf) f) = 0 /\
  zlen (encode buf dt sr f) = zlen buf /\
  exists d r, get_frame true (r_setup hw (encode buf dt sr f)) dt sr (zlen buf) = (Some d, r) /\
    clean r /\ same_side (two_zeros f) d /\ d_x d = [0; 0] /\ d_seed d = 0.
Proof.
  intros Hb HL Hd Hs Hx Hq Ht H.
  pose proof (main_ops_ok _ _ _ _ H) as Hok.
  destruct (main_ops_zeros dt sr (zlen buf) f) as (m & Hm & Em).
  pose proof (get_main_reads _ _ _ _ H) as HR. rewrite Em in *.
  apply Forall_app in Hok. destruct Hok as [Ho _].
  pose proof H as (_ & _ & Htn & Hsn & _).
  assert (HT : zlen (t_filters (f_tns (two_zeros f))) <= 2).
  { destruct Htn as (_ & Hn & _). unfold zlen. cbn [f_tns f_bw two_zeros] in *. rewrite Hn. destruct ((1 <=? dt) && (3 <=? f_bw f)); cbn; lia. }
  destruct (plain_ops_bits dt sr (two_zeros f) Hd Hs Ht HT) as [P1 P2].
  unfold encode. rewrite (put_frame_plain _ dt sr (zlen buf) f Hx Hq Hsn).
  destruct (bits_only_frame buf _ Hb Ho P1 ltac:(lia)) as (W1 & W2 & W3 & W4).
  set (w := fold_left wstep (plain_ops dt sr (two_zeros f)) (w_setup buf)) in *.
  split; [unfold w_check; replace (w_bits_left w <? 0) with false by lia; reflexivity|].
  split; [exact W3|].
  destruct (first_symbol_fin (zlen buf) _ m _ Ho P1 Hm ltac:(lia) W2) as [HF Hl].
  pose proof (RSim_init hw _ _ _ W4 W3 eq_refl ltac:(lia)) as Hi.
  destruct (HR _ _ _ _ a_init_ok Hi HF) as (r & E & S).
  pose proof (RSim_left_ge _ _ _ _ S) as Hge.
  unfold get_frame. rewrite E. unfold get_tail.
  assert (Ex : d_x (main_decoded sr (two_zeros f)) = [0; 0] /\ d_seed (main_decoded sr (two_zeros f)) = 0).
  { unfold main_decoded, f_q. cbn [f_x f_side q_lsb two_zeros map d_x d_seed].
    assert (Eq : quant rnd (is_hr sr) 0 = 0) by (destruct (is_hr sr); vm_compute; reflexivity). rewrite Eq.
    destruct (q_lsb (f_side f)); split; reflexivity. }
  destruct Ex as [Ex Es]. rewrite Ex, Es. cbn [map].
  change (0 * one) with 0. unfold get_residual. rewrite get_res_zeros.
  assert (El : get_lsb r (r_get_bits_left r) [0; 0] 0 0 = (([0; 0], 0), r)).
  { cbn [get_lsb]. destruct (r_get_bits_left r <=? 0); reflexivity. }
  rewrite El. cbn [map]. change (0 * one) with 0.
  set (d := d_set_x (main_decoded sr (two_zeros f)) [0; 0] 0).
  exists d, r.
  assert (Er : r_check r = 0).
  { unfold r_check. rewrite (rs_err _ _ _ _ S). replace (r_bits_left r <? 0) with false by lia. reflexivity. }
  split.
  { destruct (q_lsb (d_side (main_decoded sr (two_zeros f)))); fold d; rewrite Er; reflexivity. }
  split; [destruct (rs_ra _ _ _ _ S); unfold clean; auto|].
  split; [unfold same_side, d; cbn; auto 10|]. split; reflexivity.
Qed.
