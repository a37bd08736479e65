(** * C41 and C49: a null signal, from the samples to the samples
    The encoder, the frames and the decoder, in binary32. *)
From Coq Require Import Reals ZArith List Bool Lia Lra ZifyBool.
From Flocq Require Import Core.Core IEEE754.BinarySingleNaN.
From Verif Require Import Base BaseProofs ConfigModel ConfigSpec ConfigProofs SideModel SideSpec FrameModel FrameSpec DecoderProofs FloatOps F32Model F32Proofs MdctFloat SnsFloat LtpfModel LtpfProofs LtpfSpec P_Ltpf FrontModel P_Front.
From Verif Require Import TnsModel TnsProofs TnsZero SpecEncModel SpecEncProofs SpecZero EncModel EncSpec EncProofs EncRun EncShape SilentRun P_Enc SynthModel SynthProofs SynthSpec SynthPipe SilentDec.
From Verif Require P_Synth P_Tns LoopProofs.
Import ListNotations.
Local Open Scope Z_scope.

(** The temporal noise shaping of a null spectrum has no filter (and changes nothing). *)
Theorem C41_no_filter nan junk dt bw nbytes near_nyquist x :
  P_Tns.frame_cfg dt bw -> c_ne dt (Z.min bw 4) <= zlen x -> Forall zero32 x ->
  exists tns, tns_analyze (f32_ops nan) junk dt bw near_nyquist nbytes x = Some (tns, x) /\ Forall (fun f => f = []) (t_filters tns).
Proof.
  intros C L Zx. apply P_Tns.frame_cfg_eq in C. eexists. split; [apply tns_zero; [exact C|exact L|exact Zx]|].
  cbn [t_filters]. apply Forall_forall. intros v Hv. apply repeat_spec in Hv. exact Hv.
Qed.
Print Assumptions C41_no_filter.
Example C41_no_filter_example : P_Tns.frame_cfg 3 4 /\ c_ne 3 4 <= zlen (repeat (f32_dy 0 0) 480) /\ Forall zero32 (repeat (f32_dy 0 0) 480).
Proof. split; [vm_compute; intuition discriminate|]. split; [vm_compute; discriminate|]. apply Forall_forall. intros v Hv. apply repeat_spec in Hv. subst v. apply zero_0. Qed.

(** What the decoder is given: frames that the encoder returned, and losses, in any order. *)
Definition received (outs : list (Z * list Z * bool)) (k : option (list Z) * Z) : Prop :=
  match k with
  | (Some b, nbytes) => In (0, b, false) outs /\ nbytes = zlen b
  | (None, nbytes) => - 10000000 <= nbytes <= 10000000
  end.

(** For every configuration (high resolution included, other sample rates for the PCM on both
    sides, with or without the postfilter) and every sequence of calls whose samples are all
    zeros (of any sign for the floats): the encoder accepts them, without any overflow,
    and its frames decode (whatever the state of the rate control that the sizes of the frames
    give, and in any order, repeated or with losses) to null samples only. *)
Theorem C49_null_signal nan lit junk junkd hr dt_us sr_hz enc_pcm_hz c n bypass calls :
  hr_setup_encoder hr dt_us sr_hz enc_pcm_hz = Some (Some (c, n)) ->
  Forall (ecall_ok dt_us (if enc_pcm_hz <=? 0 then sr_hz else enc_pcm_hz)) calls -> Forall null_call calls ->
  exists outs st,
    encode_run nan lit junk junkd (enc_init nan c n bypass) calls = Some (outs, st) /\
    Forall2 (fun k r => let '(ret, b, overflow) := r in
      overflow = false /\ if accepted c (fst (fst k)) then ret = 0 /\ bytes b /\ zlen b = fst (fst k) else ret = -1 /\ b = snd k) calls outs /\
    forall nan' lit' junk' hw dec_pcm_hz c' n' link,
      literals lit' -> hr_setup_decoder hr dt_us sr_hz dec_pcm_hz = Some (Some (c', n')) -> zlen link < INT_MAX -> Forall (received outs) link ->
      exists douts dst,
        run_calls (f32_ops nan') lit' junk' true hw (dec_init (f32_ops nan') c' n') link = Some (douts, dst) /\
        Forall2 (fun (k : option (list Z) * Z) o => fst o = (if fst k then 0 else 1) /\
          exists y, snd o = Some y /\ zlen y = samples dt_us (if dec_pcm_hz <=? 0 then sr_hz else dec_pcm_hz) /\ Forall zero32 y) link douts.
Proof.
  intros Hs Hk Hz. set (st := enc_init nan c n bypass). set (hz := if enc_pcm_hz <=? 0 then sr_hz else enc_pcm_hz) in *.
  destruct (C47_analysis nan lit junk junkd hr dt_us sr_hz enc_pcm_hz c n bypass calls Hs Hk) as (hs & Es & Ha). fold st in Es.
  destruct (e_setup_geometry _ _ _ _ _ _ Hs) as (S1 & G). fold hz in G. pose proof G as (S2 & _ & _ & G1 & G2 & G3 & G4 & G5 & G6 & G7 & G8 & G9 & G10 & G11 & G12).
  assert (Lm : zlen (y_mem st) = n). { unfold st, enc_init, y_mem, zlen. rewrite repeat_length. lia. }
  assert (Exd : exists xd, rdn (y_mem st) (e_xd c) (c_nd (e_dt c) (e_srp c)) = Some xd /\ Forall zero32 xd).
  { exists (repeat (f32_dy 0 0) (Z.to_nat (c_nd (e_dt c) (e_srp c)))). split.
    - apply rdn_at; [lia|unfold zlen; rewrite repeat_length; lia|lia|]. intros p Hp. unfold st, enc_init, y_mem in *. unfold zlen in Lm. rewrite repeat_length in Lm. transitivity (Some (f32_dy 0 0)); [apply LoopProofs.rd_repeat; lia|symmetry; apply LoopProofs.rd_repeat; lia].
    - apply Forall_forall. intros v Hv. apply repeat_spec in Hv. subst v. exact zero_0. }
  destruct Exd as (xd & Exd & Zd).
  pose proof (shape_run_zero nan lit junk junkd hr dt_us hz c n bypass G calls (y_front st) (y_mem st) xd hs Lm Exd Zd Hk Hz Es) as Hzero.
  pose proof (C47_no_overflow_partial nan lit junk junkd hr dt_us sr_hz enc_pcm_hz c n bypass calls hs Hs Hk) as Hover. fold st in Hover.
  assert (Hq : bypass = false -> Forall (fun k => Forall (fun p => Z.abs (fst p) <= safe_amplitude hz) (snd (fst k))) calls).
  { intros _. eapply Forall_impl; [|exact Hz]. intros k H. eapply Forall_impl; [|exact H]. intros p (-> & _). unfold safe_amplitude. repeat destruct (_ =? _); lia. }
  specialize (Hover Hq Es).
  destruct (encode_run_zero nan lit junk junkd hr dt_us hz c n bypass G calls (y_front st) (y_mem st) (y_spec st) hs Es spec_init_ok Hk) as (outs & st' & E & P).
  { clear - Ha Hzero Hover. revert Hzero Hover. induction Ha as [|k oh calls hs H _ IH]; intros Z0 O0; inversion Z0; inversion O0; subst; constructor; [|auto]. destruct oh; [|exact H]. tauto. }
  exists outs, st'. split; [exact E|]. split.
  { clear - P. induction P as [|k [[ret b] o] calls outs (H & O) _ IH]; constructor; [|exact IH]. cbn [snd] in O. split; [exact O|]. unfold silent_return in H. cbn [fst snd] in H.
    destruct (accepted c (fst (fst k))); [|split; congruence]. destruct H as (b' & X & B1 & B2 & _). assert (ret = 0 /\ b = b') by (split; congruence). destruct H as (-> & ->). auto. }
  intros nan' lit' junk' hw dec_pcm_hz c' n' link HL Hd HI Hl. set (hz' := if dec_pcm_hz <=? 0 then sr_hz else dec_pcm_hz).
  destruct (setup_dec_cfg _ _ _ _ _ _ Hd) as (_ & D1 & D2). destruct (setup_enc_cfg _ _ _ _ _ _ Hs) as (_ & E1 & E2).
  destruct (setup_sizes _ _ _ S1) as (_ & L2 & _). cbv zeta in L2. rewrite <- D1, <- D2 in L2.
  assert (Ed : e_dt c = d_dt c') by congruence. assert (Esr : e_sr c = d_sr c') by congruence.
  (* the frames *)
  assert (Fr : forall b, In (0, b, false) outs -> bytes b /\ 20 <= zlen b <= max_size hr dt_us sr_hz /\ exists d, decode true hw b (d_dt c') (d_sr c') = Some d /\ silent_data (d_dt c') (d_sr c') (zlen b) d).
  { intros b Hb. clear - P Hb Ed Esr L2 G2. induction P as [|k r calls outs (H & _) P IH]; [destruct Hb|]. destruct Hb as [-> |Hb]; [|exact (IH Hb)].
    unfold silent_return in H. cbn [fst snd] in H. destruct (accepted c (fst (fst k))) eqn:A; [|discriminate H]. destruct H as (b' & X & B1 & B2 & B3). assert (b = b') by congruence. subst b'.
    split; [exact B1|]. rewrite B2. split; [pose proof (accepted_range c _ G2 A); unfold accepted in A; rewrite Ed, Esr in A; lia|]. rewrite <- Ed, <- Esr. apply B3. }
  destruct (setup_geometry _ _ _ _ _ _ Hd) as (T1 & T2 & T). fold hz' in T2, T.
  assert (Hok : Forall call_ok link).
  { eapply Forall_impl; [|exact Hl]. intros [[b|] nb] H; unfold call_ok; cbn [fst snd received] in *; [|exact H]. destruct H as (H1 & ->). destruct (Fr b H1) as (B1 & _). split; [exact B1|lia]. }
  destruct (P_Synth.C46_decoder (f32_ops nan') lit' junk' true hw hr dt_us sr_hz dec_pcm_hz c' n' link Hd HI Hok) as (douts & dst & xs & R1 & R2 & R3 & R4 & R5). fold hz' in R3, R5.
  set (req := map (request _ _) link) in *.
  exists douts, dst. split; [exact R1|].
  assert (Rq : Forall2 (fun (k : option (list Z) * Z) q => exists o, q = Some (o, snd k) /\ silent_req (d_dt c') (d_sr c') (o, snd k) /\ answer q = if fst k then 0 else 1) link req).
  { unfold req. clear - Hl Fr. induction Hl as [|[[b|] nb] link H _ IH]; cbn [map]; constructor; try exact IH; cbn [request fst snd received] in *.
    - destruct H as (H1 & ->). destruct (Fr b H1) as (_ & B2 & d & B3 & B4). assert (Q : (20 <=? zlen b) && (zlen b <=? max_size hr dt_us sr_hz) = true) by lia. rewrite Q.
      rewrite firstn_all2 by (unfold zlen; lia). rewrite B3. exists (Some d). split; [reflexivity|]. split; [exact B4|reflexivity].
    - exists None. split; [reflexivity|]. split; [exact I|reflexivity]. }
  assert (Hsil : Forall (silent_req (d_dt c') (d_sr c')) (somes req)).
  { clear - Rq. induction Rq as [|k q link req (o & -> & H & _) _ IH]; cbn [somes]; constructor; assumption. }
  destruct T as (T3 & T4 & T5 & T6 & T7 & T8 & T9 & T10 & T11 & _).
  assert (Zxs : Forall (Forall zero32) xs).
  { refine (frames_silent nan' (d_dt c') (d_sr c') (d_srp c') T3 T4 T5 T6 T7 _ (somes req) _ xs _ Hsil R4).
    - rewrite <- Ed, <- Esr. exact G6.
    - unfold null_core, core_init. cbn [k_plc k_spectrum k_overlap pf_alpha plc_reset]. split; [exact one_pb|]. unfold zlen. rewrite !repeat_length.
      split; [apply (zeros_zero nan')|]. split; [lia|]. split; [apply (zeros_zero nan')|lia]. }
  assert (Zy : Forall (Forall zero32) (somes (map snd douts))).
  { rewrite R5. destruct hr; [exact Zxs|]. apply Forall_forall. intros y Hy. unfold P_Synth.postfiltered in Hy. apply in_map_iff in Hy. destruct Hy as (k & <- & _). apply Forall_forall. intros v Hv. apply in_map_iff in Hv. destruct Hv as (i & <- & _).
    apply output_zero; [exact HL| | |].
    - clear - T2. supported_case T2; vm_compute; split; discriminate.
    - clear - T2. clearbody hz'. supported_case T2; vm_compute; (split; [discriminate|reflexivity]).
    - intros t. unfold input. destruct (t <? 0); [exact zero_0|]. set (a := Z.to_nat _). set (b := Z.to_nat _).
      assert (Zn : forall (l : list f32) i, Forall zero32 l -> zero32 (nth i l (f32_dy 0 0))).
      { intros l j Hj. destruct (nth_in_or_default j l (f32_dy 0 0)) as [H1|H1]; [rewrite Forall_forall in Hj; auto|rewrite H1; exact zero_0]. }
      apply Zn. destruct (nth_in_or_default b xs []) as [H1|H1]; [rewrite Forall_forall in Zxs; auto|rewrite H1; constructor]. }
  clear - Rq R2 R3 Zy. revert douts R2 R3 Zy. induction Rq as [|k q link req (o & -> & H & A) _ IH]; intros [|[ret oy] douts] R2 R3 Zy; cbn [map] in R2; try discriminate R2; constructor.
  - cbn [fst snd] in *. assert (ret = if fst k then 0 else 1) by (rewrite <- A; congruence). split; [assumption|]. inversion R3 as [|? ? X _]. subst. cbn [fst snd] in X. destruct oy as [y|]; [|destruct (fst k); discriminate X].
    exists y. split; [reflexivity|]. split; [apply X|]. cbn [map snd somes] in Zy. inversion Zy. assumption.
  - apply IH; [cbn [fst] in R2; congruence|inversion R3; assumption|]. cbn [map snd] in Zy. destruct oy; cbn [somes] in Zy; [inversion Zy; assumption|exact Zy].
Qed.
Print Assumptions C49_null_signal.

(** The literals of the example of C46: a division of floats. *)
Lemma ex_literals : literals P_Synth.ex_lit.
Proof.
  intros z Hz. unfold P_Synth.ex_lit. cbn [f_div f32_ops].
  assert (B : forall m, Z.abs m <= 10 ^ 18 -> (Rabs (rnd32 (IZR m * p2 (- 0))) < p2 128)%R).
  { intros m Hm. apply Rle_lt_trans with (p2 60); [|apply bpow_lt; lia]. apply abs_round_le_generic; [apply vexp32|apply valid_rnd_N| |].
    - replace (p2 60) with (IZR 1 * p2 60)%R by ring. apply fmt_Zp; lia.
    - cbn [bpow Z.opp]. rewrite Rmult_1_r, <- abs_IZR. change (p2 60) with (IZR (2 ^ 60)). apply IZR_le. apply (Z.le_trans _ (10 ^ 18)); [exact Hm|vm_compute; discriminate]. }
  destruct (dy_val z 0 (B z Hz)) as (F1 & V1). destruct (dy_val (10 ^ 18) 0 (B (10 ^ 18) ltac:(vm_compute; discriminate))) as (F2 & V2).
  assert (One : fmt 1) by (replace 1%R with (IZR 1 * p2 0)%R by (cbn; ring); apply fmt_Zp; lia).
  assert (P2 : (1 <= val (f32_dy (10 ^ 18) 0))%R). { rewrite V2. apply round_ge_generic; [apply vexp32|apply valid_rnd_N|exact One|]. cbn [bpow Z.opp]. rewrite Rmult_1_r. apply IZR_le. vm_compute. discriminate. }
  assert (Q : (Rabs (val (f32_dy z 0)) <= val (f32_dy (10 ^ 18) 0))%R).
  { rewrite V1, V2. assert (L : (- (IZR (10 ^ 18) * p2 (- 0)) <= IZR z * p2 (- 0) <= IZR (10 ^ 18) * p2 (- 0))%R).
    { cbn [bpow Z.opp]. rewrite !Rmult_1_r, <- opp_IZR. split; apply IZR_le; lia. }
    apply Rabs_le. split; [|apply round_le; [apply vexp32|apply valid_rnd_N|apply L]]. rewrite <- round_NE_opp. apply round_le; [apply vexp32|apply valid_rnd_N|apply L]. }
  assert (D : (Rabs (val (f32_dy z 0) / val (f32_dy (10 ^ 18) 0)) <= 1)%R).
  { unfold Rdiv. rewrite Rabs_mult, (Rabs_pos_eq (/ _)) by (apply Rlt_le, Rinv_0_lt_compat; lra). apply (Rmult_le_reg_r (val (f32_dy (10 ^ 18) 0))); [lra|]. rewrite Rmult_assoc, Rinv_l by lra. lra. }
  assert (R : (Rabs (rnd32 (val (f32_dy z 0) / val (f32_dy (10 ^ 18) 0))) <= 1)%R) by (apply abs_round_le_generic; [apply vexp32|apply valid_rnd_N|exact One|exact D]).
  destruct (div_val (f32_dy z 0) (f32_dy (10 ^ 18) 0) F1) as (F & V); [lra| |].
  { eapply Rle_lt_trans; [exact R|]. change 1%R with (p2 0). apply bpow_lt. lia. }
  split; [exact F|]. rewrite V. cbn [bpow]. rewrite Rmult_1_r. exact R.
Qed.

(** The hypotheses: 10 ms at 96 kHz in high resolution, in 100 then 31 (refused) then 625 bytes, and
    7.5 ms at 48 kHz coded at 32 kHz, in 40 bytes, with zeros of both signs. *)
Definition ex_null (n : nat) : list (Z * f32) := map (fun i => (0, if Nat.even i then f32_dy 0 0 else Bopp (f32_dy 0 0))) (seq 0 n).
Definition ex_null_calls (n : nat) (sizes : list Z) : list ecall := map (fun k => (k, ex_null n, repeat 255 (Z.to_nat k))) sizes.
Lemma ex_null_ok n sizes dt_us hz : Z.of_nat n = samples dt_us hz -> Forall (fun k => 0 <= k) sizes ->
  Forall (ecall_ok dt_us hz) (ex_null_calls n sizes) /\ Forall null_call (ex_null_calls n sizes).
Proof.
  intros Hn Hs. split; apply Forall_map; (eapply Forall_impl; [|exact Hs]); intros k Hk; cbv beta in Hk.
  - unfold ecall_ok. split; [unfold zlen, ex_null; rewrite map_length, seq_length; exact Hn|]. split; [apply Forall_map, Forall_forall; intros i _; cbn [fst]; lia|].
    split; [unfold zlen; rewrite repeat_length; lia|]. apply Forall_forall. intros v Hv. apply repeat_spec in Hv. subst v. lia.
  - unfold null_call. cbn [fst snd]. apply Forall_map, Forall_forall. intros i _. cbn [fst snd]. split; [reflexivity|]. destruct (Nat.even i); [exact zero_0|apply zero_opp, zero_0].
Qed.
Example C49_example :
  (exists c n, hr_setup_encoder true 10000 96000 0 = Some (Some (c, n)) /\ map (accepted c) [100; 31; 625] = [true; false; true]) /\
  (exists c n, hr_setup_decoder true 10000 96000 96000 = Some (Some (c, n))) /\
  Forall (ecall_ok 10000 96000) (ex_null_calls 960 [100; 31; 625]) /\ Forall null_call (ex_null_calls 960 [100; 31; 625]) /\
  (exists c n, hr_setup_encoder false 7500 32000 48000 = Some (Some (c, n)) /\ accepted c 40 = true) /\
  (exists c n, hr_setup_decoder false 7500 32000 48000 = Some (Some (c, n))) /\
  Forall (ecall_ok 7500 48000) (ex_null_calls 360 [40; 40]) /\ Forall null_call (ex_null_calls 360 [40; 40]) /\ literals P_Synth.ex_lit.
Proof.
  destruct (ex_null_ok 960 [100; 31; 625] 10000 96000 eq_refl) as (A & B); [repeat constructor; lia|].
  destruct (ex_null_ok 360 [40; 40] 7500 48000 eq_refl) as (C & D); [repeat constructor; lia|].
  split; [do 2 eexists; split; vm_compute; reflexivity|]. split; [do 2 eexists; vm_compute; reflexivity|]. split; [exact A|]. split; [exact B|].
  split; [do 2 eexists; split; vm_compute; reflexivity|]. split; [do 2 eexists; vm_compute; reflexivity|]. split; [exact C|]. split; [exact D|exact ex_literals].
Qed.
