(** * Properties C07 and C32: calls of the encoder and decoder, lost frames *)
From Coq Require Import ZArith List Bool Lia ZifyBool.
From Verif Require Import Base BaseProofs BitsModel ConfigModel ConfigSpec ConfigProofs FloatModel SideModel FrameModel
  FrameSpec FrameProofs P_Frame DecoderModel DecoderSpec DecoderProofs.
Import ListNotations.
Local Open Scope Z_scope.

Lemma encode_bytes buf dt sr f : bytes buf -> frame_ok dt sr (zlen buf) f ->
  zlen (encode buf dt sr f) = zlen buf /\ bytes (encode buf dt sr f).
Proof.
  intros Hb Hf. pose proof (C09_frame_in_buffer buf dt sr (zlen buf) f Hb Hf) as H. cbv zeta in H.
  unfold encode. destruct H as (_ & _ & _ & H). exact H.
Qed.

(** C07, encoder: whatever the analysis of the signal gives, the call fails exactly on a
    wrong size, and then leaves the output and the state unchanged. Otherwise the memory
    after the [nbytes] of the frame is unchanged. A NULL handle fails. *)
Theorem C07_encode {E P} (analyse : E -> P -> Z -> frame * E) hr dt_us sr_hz sr_pcm_hz c n e pcm nbytes out :
  hr_setup_encoder hr dt_us sr_hz sr_pcm_hz = Some (Some (c, n)) ->
  let '(ret, out', h) := lc3_encode analyse (Some (c, e)) pcm nbytes out in
  (ret = 0 \/ ret = -1) /\
  (ret = 0 <-> min_size hr dt_us sr_hz <= nbytes <= max_size hr dt_us sr_hz) /\
  (ret = -1 -> out' = out /\ h = Some (c, e)) /\
  (bytes out -> nbytes <= zlen out -> frame_ok (e_dt c) (e_sr c) nbytes (fst (analyse e pcm nbytes)) ->
     bytes out' /\ zlen out' = zlen out /\ skipn (Z.to_nat nbytes) out' = skipn (Z.to_nat nbytes) out) /\
  (exists e', h = Some (c, e')) /\
  lc3_encode analyse None pcm nbytes out = (-1, out, None).
Proof.
  intros H. apply setup_enc_cfg in H. destruct H as (Hs & E1 & E2).
  destruct (setup_sizes _ _ _ Hs) as (L1 & L2 & _). cbv zeta in L1, L2.
  unfold lc3_encode. rewrite E1, E2, L1, L2. destruct (_ || _) eqn:B; apply orb_false_iff in B || apply orb_true_iff in B.
  - split; [auto|]. split; [clear - B; lia|]. split; [auto|]. split; [auto|]. eauto.
  - destruct (analyse e pcm nbytes) as [f e']. cbn [fst]. split; [auto|]. split; [clear - B; lia|]. split; [discriminate|].
    split; [|eauto]. intros Hb Hn Hf.
    assert (HL : 0 <= nbytes).
    { clear - Hs B. destruct (size_limits_ok _ _ _ Hs) as (HL & _). lia. }
    assert (En : zlen (firstn (Z.to_nat nbytes) out) = nbytes).
    { clear - HL Hn. unfold zlen in *. rewrite firstn_length. lia. }
    assert (Hb1 : bytes (firstn (Z.to_nat nbytes) out)).
    { apply Forall_forall. intros x Hx. unfold bytes in Hb. rewrite Forall_forall in Hb. apply Hb.
      rewrite <- (firstn_skipn (Z.to_nat nbytes) out). apply in_or_app. auto. }
    assert (Hb2 : bytes (skipn (Z.to_nat nbytes) out)).
    { apply Forall_forall. intros x Hx. unfold bytes in Hb. rewrite Forall_forall in Hb. apply Hb.
      rewrite <- (firstn_skipn (Z.to_nat nbytes) out). apply in_or_app. auto. }
    rewrite <- En in Hf.
    destruct (encode_bytes _ _ _ _ Hb1 Hf) as (EL & EB).
    rewrite En in EL. revert EL EB. clear - HL Hn Hb2.
    match goal with |- context [encode ?a ?b ?c ?d] => generalize (encode a b c d) end. intros o EL EB.
    split; [apply Forall_app; auto|].
    assert (El : length o = Z.to_nat nbytes) by (clear - EL; unfold zlen in EL; lia).
    split.
    + clear - El HL Hn. unfold zlen in *. rewrite app_length, skipn_length. lia.
    + rewrite skipn_app, El, Nat.sub_diag. rewrite skipn_all2 by (rewrite El; apply Nat.le_refl). reflexivity.
Qed.
Print Assumptions C07_encode.

(** C07, decoder: for any state of a decoder, return values and effects. *)
Theorem C07_decode shape lf_first hw hr dt_us sr_hz sr_pcm_hz c n k plc xg inp nbytes ret y st :
  hr_setup_decoder hr dt_us sr_hz sr_pcm_hz = Some (Some (c, n)) ->
  let st0 := mkState (Nat.iter k complete c) plc xg in
  let bad_size := exists data, inp = Some data /\ ~ (20 <= nbytes <= max_size hr dt_us sr_hz) in
  let lost := forall data, inp = Some data ->
    decode lf_first hw (firstn (Z.to_nat nbytes) data) (d_dt c) (d_sr c) = None in
  lc3_decode shape lf_first hw (Some st0) inp nbytes = Some (ret, y, st) ->
  (ret = -1 \/ ret = 0 \/ ret = 1) /\
  (ret = -1 <-> bad_size) /\
  (ret = 1 <-> ~ bad_size /\ lost) /\
  (ret = -1 -> y = None /\ st = Some st0) /\
  (ret <> -1 -> exists ys p xs, y = Some ys /\ st = Some (mkState (Nat.iter (S k) complete c) p xs)) /\
  lc3_decode shape lf_first hw None inp nbytes = Some (-1, None, None).
Proof.
  intros Hs st0 bad_size lost. apply setup_dec_cfg in Hs. destruct Hs as (Hs & E1 & E2).
  destruct (setup_sizes _ _ _ Hs) as (_ & L2 & _). cbv zeta in L2.
  destruct (complete_iter_cfg c k) as (F1 & F2 & _). cbv zeta in F1, F2.
  unfold lc3_decode. cbn [x_cfg st0].
  set (o := match inp with Some data => decode _ _ _ _ _ | None => None end).
  assert (Ho : o = None <-> lost).
  { unfold o, lost. rewrite F1, F2. destruct inp as [data|]; split; intros H.
    - intros d Hd. injection Hd as <-. exact H.
    - apply H. reflexivity.
    - intros d Hd. discriminate.
    - reflexivity. }
  assert (Hbad : match inp with
       | Some _ => (nbytes <? 20) || (max_frame_bytes (d_dt (Nat.iter k complete c)) (d_sr (Nat.iter k complete c)) <? nbytes)
       | None => false end = true <-> bad_size).
  { rewrite F1, F2, E1, E2, L2. unfold bad_size. destruct inp as [data|].
    - split; [intros H; exists data; split; [reflexivity|lia]|].
      intros (d & _ & H). lia.
    - split; [discriminate|]. intros (d & H & _). discriminate. }
  destruct (match inp with Some _ => _ | None => false end).
  - intros H. injection H as <- <- <-. assert (Hb : bad_size) by (apply Hbad; reflexivity).
    split; [auto|]. split; [tauto|]. split; [split; [discriminate|tauto]|]. split; [auto|].
    split; [congruence|reflexivity].
  - assert (Hb : ~ bad_size) by (intros H; apply Hbad in H; discriminate).
    destruct o as [d|].
    + cbn [synthesize]. intros H. injection H as <- <- <-.
      split; [auto|]. split; [split; [discriminate|tauto]|].
      split; [split; [discriminate|]|split; [discriminate|split; [|reflexivity]]].
      * intros [_ H]. apply Ho in H. discriminate.
      * intros _. do 3 eexists. split; reflexivity.
    + destruct (synthesize shape st0 None) as [[ys s]|] eqn:E; [|discriminate]. intros H. injection H as <- <- <-.
      split; [auto|]. split; [split; [discriminate|tauto]|].
      split; [split; [|reflexivity]|split; [discriminate|split; [|reflexivity]]].
      * intros _. split; [exact Hb|]. apply Ho. reflexivity.
      * intros _. cbn [synthesize st0 x_plc x_xg x_cfg] in E.
        destruct (plc_synthesize plc xg) as [[ys' p]|]; [|discriminate]. injection E as <- <-.
        do 3 eexists. split; reflexivity.
Qed.
Print Assumptions C07_decode.

(** The frames written by the encoder are decoded, in any state of the decoder. *)
Theorem C07_encoded_frame shape hw hr dt_us sr_hz sr_pcm_hz c n k plc xg buf f :
  hr_setup_decoder hr dt_us sr_hz sr_pcm_hz = Some (Some (c, n)) ->
  min_size hr dt_us sr_hz <= zlen buf <= max_size hr dt_us sr_hz ->
  bytes buf -> frame_ok (d_dt c) (d_sr c) (zlen buf) f ->
  w_check (put_frame (w_setup buf) (d_dt c) (d_sr c) (zlen buf) f) = 0 ->
  exists d st, same_side f d /\
    lc3_decode shape true hw (Some (mkState (Nat.iter k complete c) plc xg))
      (Some (encode buf (d_dt c) (d_sr c) f)) (zlen buf) = Some (0, Some (shape d), Some st).
Proof.
  intros Hs Hn Hb Hf Hw. apply setup_dec_cfg in Hs. destruct Hs as (Hs & E1 & E2).
  destruct (setup_sizes _ _ _ Hs) as (_ & L2 & _). cbv zeta in L2.
  destruct (size_limits_ok _ _ _ Hs) as (HL & _).
  destruct (complete_iter_cfg c k) as (F1 & F2 & _). cbv zeta in F1, F2.
  destruct (C24_frame_round_trip_partial hw buf _ _ f Hb Hf Hw) as (EL & _ & d & Ed & Hside & _).
  exists d. eexists. split; [exact Hside|].
  unfold lc3_decode. cbn [x_cfg]. rewrite F1, F2.
  assert (Hm : max_frame_bytes (d_dt c) (d_sr c) = max_size hr dt_us sr_hz) by (rewrite E1, E2; exact L2).
  rewrite Hm. replace ((zlen buf <? 20) || (max_size hr dt_us sr_hz <? zlen buf)) with false by (clear - HL Hn; lia).
  rewrite firstn_all2 by (clear - EL; unfold zlen in *; lia). rewrite Ed. cbn [synthesize]. reflexivity.
Qed.
Print Assumptions C07_encoded_frame.

(** 20 bytes at 8 kHz and 2.5 ms, wrong sizes, a lost frame, and undecodable bytes. *)
Definition ex_small : frame :=
  mkFrame 0 (mkSide 4 false 200) (mkTns false [[]]) false (mkSns 3 17 0 1 12345 1 5 1)
    (mkLtpf 0 0) 5 [7 * one / 2; - (5 * one); one / 4; - (9 * one / 8)].
Definition ex_shape (d : decoded) : list Z := d_x d ++ repeat 0 (Z.to_nat (20 - zlen (d_x d))).
Definition ex_init := dec_init (mkDec 0 0 0 0 160 180 200).
Definition ex_call (inp : option (list Z)) (nbytes : Z) : Z :=
  match lc3_decode ex_shape true (fun v => v) (Some ex_init) inp nbytes with
  | Some (ret, _, _) => ret
  | None => -2
  end.
Example C07_example :
  hr_setup_decoder false 2500 8000 0 = Some (Some (x_cfg ex_init, 220)) /\
  ex_call (Some (encode (repeat 0 20) 0 0 ex_small)) 20 = 0 /\
  ex_call (Some (repeat 0 500)) 401 = -1 /\ ex_call (Some (repeat 0 500)) 19 = -1 /\
  ex_call None 0 = 1 /\ ex_call (Some (repeat 255 20)) 20 = 1 /\
  let '(ret, out, _) := lc3_encode (fun (e : unit) (_ : unit) _ => (ex_small, e))
                          (Some (mkEnc 0 0 0 10 15 35, tt)) tt 20 (repeat 0 22) in
  ret = 0 /\ out = encode (repeat 0 20) 0 0 ex_small ++ [0; 0].
Proof. vm_compute. repeat split; reflexivity. Qed.

(** C32: for any sequence of frames, losses and wrong calls, the return values and the
    spectra are those of the specification: the spectrum of a frame that can be decoded, or
    the one of the last such frame (zeros before the first), with the signs of the generator
    and the gain for the number of losses since. The gain is 1 for 3 losses and follows
    [gain_law]: never increasing, 0.9 then 0.85 from one to the next, and at most 2^-147 after
    650 losses. *)
Theorem C32_calls : exists g, gain_law g /\
  forall shape lf_first hw hr dt_us sr_hz sr_pcm_hz c n calls,
  hr_setup_decoder hr dt_us sr_hz sr_pcm_hz = Some (Some (c, n)) ->
  let ne := samples dt_us (if hr then sr_hz else Z.min sr_hz 40000) in
  (forall d, zlen (shape d) = ne) -> zlen calls < INT_MAX ->
  exists st, run_calls shape lf_first hw (Some (dec_init c)) calls =
    Some (expected_calls shape (fun data => decode lf_first hw data (d_dt c) (d_sr c)) g
            (max_size hr dt_us sr_hz) ne [] calls, st).
Proof.
  exists gain. split; [exact gain_is_law|].
  intros shape lf_first hw hr dt_us sr_hz sr_pcm_hz c n calls Hs ne Hshape Hc.
  apply setup_dec_cfg in Hs. destruct Hs as (Hs & E1 & E2).
  destruct (setup_sizes _ _ _ Hs) as (_ & L2 & _ & _ & L5). cbv zeta in L2, L5.
  rewrite <- E1, <- E2 in L2, L5. subst ne. rewrite <- L2, <- L5 in *.
  apply decode_calls; [|exact Hshape|lia].
  rewrite L5. supported_case Hs; vm_compute; discriminate.
Qed.
Print Assumptions C32_calls.

(** What is concealed is not louder than the last frame, for any gain that follows the
    law, and the 3 first losses in a row have its coefficients with signs changed. *)
Theorem C32_bounded g n j xs : gain_law g -> 0 <= n -> Forall is_f32 xs ->
  Forall2 (fun x y => Z.abs y <= Z.abs x) xs (concealed g n j xs).
Proof. intros Hg Hn Hx. exact (concealed_bounds g n xs Hg Hn j Hx). Qed.
Print Assumptions C32_bounded.
Theorem C32_first_losses g n j xs : gain_law g -> 1 <= n <= 3 -> Forall is_f32 xs ->
  concealed g n j xs =
    map (fun p => sign (j + 1 + Z.of_nat (fst p)) * snd p) (combine (seq 0 (length xs)) xs).
Proof. intros Hg Hn Hx. apply concealed_first; [exact Hg|lia|exact Hx]. Qed.
Print Assumptions C32_first_losses.

(** The counter of the losses is a signed integer without saturation: it overflows after
    2^31 - 1 losses in a row. *)
Theorem C32_counter_refuted shape lf_first hw c :
  0 <= c_ne (d_dt c) (d_sr c) -> (forall d, zlen (shape d) = c_ne (d_dt c) (d_sr c)) ->
  run_calls shape lf_first hw (Some (dec_init c)) (repeat (None, 0) (Z.to_nat (INT_MAX - 1)) ++ [(None, 0)]) = None.
Proof.
  intros Hn Hs. rewrite (init_state shape c). apply losses_overflow; auto.
Qed.
Print Assumptions C32_counter_refuted.

(** 4 losses after a frame: the second coefficient (by 100) is attenuated by 0.9 at the
    fourth. *)
Example C32_example :
  match run_calls ex_shape true (fun v => v) (Some ex_init)
    [(Some (encode (repeat 0 20) 0 0 ex_small), 20); (None, 0); (None, 0); (None, 0); (None, 0)] with
  | Some (outs, _) =>
      map (fun o => (fst o, match snd o with Some y => znth y 1 0 / (one / 100) | None => 0 end)) outs =
        [(0, -532); (1, 531); (1, 531); (1, -532); (1, 478)]
  | None => False
  end.
Proof. vm_compute. reflexivity. Qed.
