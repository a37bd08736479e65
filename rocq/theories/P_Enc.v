(** * C47: the whole encoder, in binary32 *)
From Coq Require Import Reals ZArith List Bool Lia Lra ZifyBool.
From Flocq Require Import Core.Core IEEE754.BinarySingleNaN.
From Verif Require Import Base BaseProofs ConfigModel ConfigSpec ConfigProofs FloatModel ResidualModel ResidualSpec SideModel SideSpec SpecSpec BitsModel FrameModel FrameSpec FloatOps F32Model F32Proofs.
From Verif Require Import BudgetModel BudgetSpec P_Budget P_Frame P_Silence FrontModel FrontProofs FrontRun P_Front GainModel GainFloat SpecEncModel SpecEncFloat SpecEncProofs SynthModel EncModel EncSpec EncProofs EncRun EncExample.
Import ListNotations.
Local Open Scope Z_scope.

(** The analysis, for every configuration (high resolution included) and every sequence of calls,
    from any 16-bit samples and any floats (infinities and NaN included): no access is out of
    an array, no conversion out of range, and the side data of each accepted call can be
    written in a frame: bandwidth, postfilter, spectral and temporal noise shaping. The
    spectrum is complete. Without the postfilter no pitch is coded. *)
Theorem C47_analysis nan lit junk junkd hr dt_us sr_hz sr_pcm_hz c n bypass calls :
  hr_setup_encoder hr dt_us sr_hz sr_pcm_hz = Some (Some (c, n)) ->
  Forall (ecall_ok dt_us (if sr_pcm_hz <=? 0 then sr_hz else sr_pcm_hz)) calls ->
  let st := enc_init nan c n bypass in
  exists hs, shape_run nan lit junk junkd c bypass (y_front st) (y_mem st) calls = Some hs /\
    Forall2 (fun k oh => match oh with
      | Some h => accepted c (fst (fst k)) = true /\ side_codable (e_dt c) (e_sr c) (fst (fst k)) h /\ zlen (h_x h) = c_ns (e_dt c) (e_srp c) /\
                  (bypass = true -> h_pitch h = false)
      | None => accepted c (fst (fst k)) = false
      end) calls hs.
Proof.
  intros Hs Hk st. destruct (e_setup_geometry _ _ _ _ _ _ Hs) as (S1 & G). set (hz := if sr_pcm_hz <=? 0 then sr_hz else sr_pcm_hz) in *.
  pose proof G as (S2 & D1 & D2 & _ & _ & _ & _ & _ & _ & _ & G8 & _ & G10 & G11 & G12).
  pose proof (fcalls_ok junkd c dt_us hz calls Hk) as Hf.
  pose proof (run_all (f_z (f32_ops nan) 0) (f_add (f32_ops nan)) (f_sub (f32_ops nan)) (f_mul (f32_ops nan)) (f_div (f32_ops nan)) (f_sqrt (f32_ops nan))
    (f_lt (f32_ops nan)) (f_le (f32_ops nan)) (f_z (f32_ops nan)) lit hr dt_us hz bypass (fcalls junkd c calls) False S2 Hf ltac:(tauto)) as R. unfold spec in R.
  rewrite <- D1, <- D2 in R.
  match type of R with match ?m with _ => _ end => destruct m as [[[outs st'] o]|] eqn:E; [|contradiction] end. destruct R as [[_ R] _]. cbn [fst] in R.
  assert (Lm : zlen (y_mem st) = n). { unfold st, enc_init, y_mem, zlen. rewrite repeat_length. pose proof (zlen_nonneg (y_mem st)). assert (0 <= c_ns (e_dt c) (e_srp c)) by (destruct G as (_ & _ & _ & _ & _ & _ & G4 & G5 & _); lia). lia. }
  destruct (shape_run_ok nan lit junk junkd hr dt_us hz c n bypass G calls (y_front st) (y_mem st) outs st' o Lm Hk E R) as (hs & Eh & Hh).
  exists hs. split; [exact Eh|]. eapply Forall2_mono_; [|exact Hh]. intros k [h|]; [|auto]. tauto.
Qed.
Print Assumptions C47_analysis.

(** On signals of a moderate amplitude, or without the postfilter, no signed operation overflows. *)
Theorem C47_no_overflow_partial nan lit junk junkd hr dt_us sr_hz sr_pcm_hz c n bypass calls hs :
  let hz := if sr_pcm_hz <=? 0 then sr_hz else sr_pcm_hz in
  hr_setup_encoder hr dt_us sr_hz sr_pcm_hz = Some (Some (c, n)) ->
  Forall (ecall_ok dt_us hz) calls ->
  (bypass = false -> Forall (fun k => Forall (fun p => Z.abs (fst p) <= safe_amplitude hz) (snd (fst k))) calls) ->
  let st := enc_init nan c n bypass in
  shape_run nan lit junk junkd c bypass (y_front st) (y_mem st) calls = Some hs ->
  Forall (fun oh => match oh with Some h => h_over h = false | None => True end) hs.
Proof.
  intros hz Hs Hk Hq st Es. destruct (e_setup_geometry _ _ _ _ _ _ Hs) as (S1 & G). fold hz in G.
  pose proof G as (S2 & D1 & D2 & _ & _ & _ & _ & _ & _ & _ & G8 & _ & G10 & G11 & G12).
  pose proof (fcalls_ok junkd c dt_us hz calls Hk) as Hf.
  assert (HQ : True -> bypass = false -> quiet hz (fcalls junkd c calls)).
  { intros _ B. specialize (Hq B). unfold quiet, pcm_of. clear - Hq. induction Hq as [|[[nb pcm] out] l H _ IH]; cbn [fcalls map]; [constructor|].
    destruct (accepted c nb); [|exact IH]. cbn [map]. constructor; [|exact IH]. cbn [fst snd k_pcm] in *. apply Forall_map. exact H. }
  pose proof (run_all (f_z (f32_ops nan) 0) (f_add (f32_ops nan)) (f_sub (f32_ops nan)) (f_mul (f32_ops nan)) (f_div (f32_ops nan)) (f_sqrt (f32_ops nan))
    (f_lt (f32_ops nan)) (f_le (f32_ops nan)) (f_z (f32_ops nan)) lit hr dt_us hz bypass (fcalls junkd c calls) True S2 Hf HQ) as R. unfold spec in R.
  rewrite <- D1, <- D2 in R.
  match type of R with match ?m with _ => _ end => destruct m as [[[outs st'] o]|] eqn:E; [|contradiction] end. destruct R as [[_ R] Ro]. cbn [fst] in R. specialize (Ro I). subst o.
  assert (Lm : zlen (y_mem st) = n). { unfold st, enc_init, y_mem, zlen. rewrite repeat_length. assert (0 <= c_ns (e_dt c) (e_srp c)) by (destruct G as (_ & _ & _ & _ & _ & _ & G4 & G5 & _); lia). lia. }
  destruct (shape_run_ok nan lit junk junkd hr dt_us hz c n bypass G calls (y_front st) (y_mem st) outs st' false Lm Hk E R) as (hs' & Eh & Hh).
  assert (hs' = hs) by congruence. subst hs'. clear - Hh. induction Hh as [|k oh calls hs H _ IH]; constructor; [|exact IH]. destruct oh; [|exact I]. apply H. reflexivity.
Qed.
Print Assumptions C47_no_overflow_partial.

(** The frames, at the standard sample rates: when the shaped spectra are within the reach of the
    quantizer and the side data leave bits for them, all the calls return; a refused one
    returns -1 and writes nothing, an accepted one returns 0 and writes a frame which holds
    the data of the analysis ([frame_of]).
    Missing: that the spectra of all signals are within this reach; high resolution. *)
Theorem C47_frames_partial nan lit junk junkd dt_us sr_hz sr_pcm_hz c n bypass calls hs :
  hr_setup_encoder false dt_us sr_hz sr_pcm_hz = Some (Some (c, n)) ->
  Forall (ecall_ok dt_us (if sr_pcm_hz <=? 0 then sr_hz else sr_pcm_hz)) calls ->
  let st := enc_init nan c n bypass in
  shape_run nan lit junk junkd c bypass (y_front st) (y_mem st) calls = Some hs ->
  Forall2 (fun k oh => match oh with Some h => in_reach (e_dt c) (e_sr c) (fst (fst k)) h | None => True end) calls hs ->
  exists outs st', encode_run nan lit junk junkd st calls = Some (outs, st') /\
    Forall2 (fun p r => returned c (fst p) (snd p) r) (combine calls hs) outs.
Proof.
  intros Hs Hk st Es Hr. destruct (C47_analysis nan lit junk junkd false dt_us sr_hz sr_pcm_hz c n bypass calls Hs Hk) as (hs' & Es' & Ha). fold st in Es'.
  assert (hs' = hs) by congruence. subst hs'. destruct (e_setup_geometry _ _ _ _ _ _ Hs) as (S1 & G).
  destruct (encode_run_ok nan lit junk junkd false dt_us _ c n bypass G eq_refl calls (y_front st) (y_mem st) (y_spec st) hs Es) as (outs & st' & E & _ & P).
  - exact spec_init_ok.
  - clear - Ha Hr. induction Ha as [|k oh calls hs H _ IH]; [constructor|]. inversion Hr. subst. constructor; [|auto]. destruct oh; [|exact H]. tauto.
  - exists outs, st'. split; [exact E|exact P].
Qed.
Print Assumptions C47_frames_partial.

(** Such a frame is decoded to its side data as soon as the truncation error of the arithmetic coder
    does not exceed the spare bits (see C26; otherwise the decoder may conceal it). *)
Theorem C47_accepted_partial hw dt sr h f out :
  let nbytes := zlen out in
  let symbols := tns_symbols (f_tns f) + spectrum_symbols (f_q sr f) in
  is_hr sr = false -> frame_of dt sr nbytes h f -> in_reach dt sr nbytes h -> bytes out -> 20 <= nbytes <= 400 ->
  46 * symbols < 2048 * (spare_bits false nbytes + 1) ->
  (0 < q_nq (f_side f) -> exists d, decode true hw (encode out dt sr f) dt sr = Some d /\ same_side f d) /\
  (q_nq (f_side f) = 0 -> Forall (fun c => c = []) (t_filters (f_tns f)) ->
   exists d, decode true hw (encode out dt sr f) dt sr = Some d /\ same_side (at_least_two f) d /\ d_x d = [0; 0]).
Proof.
  cbv zeta. intros Hr (F1 & F2 & F3 & F4 & F5 & F6 & us & n & bits & U1 & U2 & U3 & U4 & U5) (R1 & R2) Hb Hn Hsy. split.
  - intros Hq. destruct F6 as [F6|(F6 & _)]; [|lia].
    destruct (C26_budget_partial hw out dt sr f (map (quant rnd false) (firstn (Z.to_nat n) us)) (q_nq (f_side f)) bits) as (_ & _ & D); auto; try lia.
    + rewrite F2, F3. exact R2.
    + rewrite F2, F3. exact U5.
    + unfold f_q. rewrite Hr, U1, firstn_map, firstn_firstn. do 2 f_equal. lia.
    + rewrite Hr. exact Hsy.
  - intros Hq Ht. destruct F6 as [(_ & (_ & _ & F6 & _) & _)|(_ & F6 & F7)]; [lia|].
    destruct (C24_empty_spectrum hw out dt sr f Hb ltac:(lia) F6 Hq Ht F7) as (_ & _ & d & D1 & D2 & D3 & _). exists d. auto.
Qed.
Print Assumptions C47_accepted_partial.

(** The hypotheses are met by the calls of [EncExample], whose frames are decoded to the samples. *)
Example C47_example :
  hr_setup_encoder false 2500 8000 0 = Some (Some (ex_enc, 55)) /\
  Forall (ecall_ok 2500 8000) ex_calls /\
  (exists h h', ex_shapes = Some [Some h; None; Some h'] /\ in_reach 0 0 24 h /\ in_reach 0 0 24 h').
Proof.
  split; [vm_compute; reflexivity|]. split.
  - assert (S16 : forall k, Forall (fun p : Z * f32 => -32768 <= fst p <= 32767) (ex_pcm k)).
    { intros k. apply Forall_map, Forall_forall. intros i _. cbn [fst]. unfold ex_wave. pose proof (Z.mod_pos_bound (20 * k + Z.of_nat i) 24 ltac:(lia)). destruct (_ <? 12); lia. }
    assert (By : forall k, bytes (repeat 0 k)) by (intros k; apply Forall_forall; intros v Hv; apply repeat_spec in Hv; subst; lia).
    assert (L : forall k, zlen (ex_pcm k) = 20) by (intros k; unfold zlen, ex_pcm; rewrite map_length, seq_length; reflexivity).
    unfold ex_calls. constructor; [|constructor; [|constructor; [|constructor]]]; unfold ecall_ok; (split; [apply L|split; [apply S16|split; [reflexivity|apply By]]]).
  - pose proof ex_shapes_reach as R. destruct ex_shapes as [[|[h|] [|[h0|] [|[h'|] [|]]]]|]; try discriminate R.
    exists h, h'. split; [reflexivity|]. apply andb_prop in R. destruct R as (R & _). apply andb_prop in R. destruct R as (R1 & R2).
    assert (RR : forall h, ex_reach 9000 h = true -> in_reach 0 0 24 h).
    { clear. intros h R. apply andb_prop in R. destruct R as (R1 & R2). split; [|apply Z.ltb_lt; exact R2].
      rewrite forallb_forall in R1. apply Forall_forall. intros v Hv. specialize (R1 v Hv). apply andb_prop in R1. destruct R1 as (R3 & R4).
      split; [exact R3|]. destruct (dy_exact 9000 0) as (D1 & D2); try lia. change (f32_dy 9000 0) with (f32_of_int 9000) in *. unfold fin, val in *.
      rewrite Bleb_correct in R4 by (rewrite ?is_finite_Babs; assumption). rewrite B2R_Babs, D2 in R4. destruct (Rle_bool_spec (Rabs (B2R v)) (IZR 9000 * p2 (- 0))) as [L|]; [|discriminate R4].
      assert (L' : (Rabs (B2R v) <= 9000)%R) by (cbn in L; lra). split; [lra|]. unfold gain. change (255 - gain_offset 0 24) with 126.
      assert (T : (1 <= ten 126)%R). { rewrite <- ten_0. apply ten_le. lia. } unfold ten in T. lra. }
    auto.
Qed.

Lemma Forall2_inv_hd {A B} {P : A -> B -> Prop} {x y l l'} : Forall2 P (x :: l) (y :: l') -> P x y.
Proof. intros H. inversion H. assumption. Qed.
(** The first frame of the example meets the hypotheses of [C47_accepted_partial]. *)
Example C47_accepted_example :
  exists h f, (exists h', ex_shapes = Some [Some h; None; Some h']) /\ in_reach 0 0 24 h /\ frame_of 0 0 24 h f /\
    46 * (tns_symbols (f_tns f) + spectrum_symbols (f_q 0 f)) < 2048 * (spare_bits false 24 + 1) /\ 0 < q_nq (f_side f).
Proof.
  destruct C47_example as (E1 & E2 & h & h' & E3 & R & _). pose proof ex_shapes_reach as W. rewrite E3 in W. apply andb_prop in W. destruct W as (_ & W).
  destruct (C47_analysis 0 ex_lit ex_junk (SideModel.mkLtpf 7 7) false 2500 8000 0 ex_enc 55 false ex_calls E1 E2) as (hs & E4 & A).
  assert (Eh : hs = [Some h; None; Some h']) by (clear - E3 E4; rewrite E3 in E4; apply SnsFloat.some_inj; symmetry; exact E4). clear E4. rewrite Eh in A. unfold ex_calls in A.
  assert (A0 := Forall2_inv_hd A). destruct A0 as (_ & A1 & A2 & _). clear A Eh.
  destruct (e_setup_geometry _ _ _ _ _ _ E1) as (_ & G).
  destruct (write_frame_ok 0 ex_lit false 2500 _ ex_enc 55 24 h spec_init (repeat 0 24) G eq_refl ltac:(lia) A1 A2 R spec_init_ok) as (f & sp & E5 & _ & F).
  unfold ex_room in W. rewrite E5 in W. apply andb_prop in W. destruct W as (W1 & W2). apply Z.ltb_lt in W1, W2.
  exists h, f. split; [exists h'; exact E3|]. split; [exact R|]. split; [exact F|]. split; assumption.
Qed.
