(** * Properties C27, C29, C30 and C36: time domain analysis of the encoder *)
From Coq Require Import ZArith List Bool Lia.
From Verif Require Import Base BaseProofs ConfigModel ConfigSpec ConfigProofs SideModel LtpfTables LtpfModel LtpfSpec LtpfProofs P_Ltpf
  FrontModel FrontSpec FrontHp50 FrontProofs FrontPitch FrontAttack FrontRun FrontStream.
Import ListNotations.
Local Open Scope Z_scope.

(** A sequence of calls to the encoder: frames of the size of the configuration, samples of
    16 bits; the sizes in bytes and the initial content of the data are any. *)
Definition call_ok (dt_us hz : Z) (k : call * ltpf_data) : Prop :=
  zlen (k_pcm (fst k)) = samples dt_us hz /\ Forall (fun v => - 32768 <= v <= 32767) (k_pcm (fst k)).
Definition pcm_of (ks : list (call * ltpf_data)) : list (list Z) := map (fun k => k_pcm (fst k)) ks.
Definition sizes_of (ks : list (call * ltpf_data)) : list Z := map (fun k => k_nbytes (fst k)) ks.

(** Largest amplitude that the theorems cover: full scale is 32768. *)
Definition safe_amplitude (hz : Z) : Z := if hz =? 8000 then 23000 else 15600.
Definition quiet (hz : Z) (ks : list (call * ltpf_data)) : Prop :=
  Forall (Forall (fun v => Z.abs v <= safe_amplitude hz)) (pcm_of ks).

Lemma stream_zero frames t : t < 0 -> stream_of frames t = 0.
Proof. intros H. unfold stream_of. destruct (Z.ltb_spec t 0); [reflexivity|lia]. Qed.

Lemma stream_all (P : Z -> Prop) frames : P 0 -> Forall (Forall P) frames -> forall t, P (stream_of frames t).
Proof.
  intros H0 H t. unfold stream_of. destruct (t <? 0); [exact H0|].
  assert (E : Forall P (concat frames)) by (induction H; cbn [concat]; [constructor|apply Forall_app; split; assumption]).
  generalize (Z.to_nat t). induction E; intros [|n]; cbn [nth]; auto.
Qed.

Lemma amp_limit_hz hr dt_us hz : supported hr dt_us hz -> amp_limit (resolve_srate hz hr) = safe_amplitude hz.
Proof. intros H. supported_case H; reflexivity. Qed.

Lemma calls_stream hr dt_us hz ks : supported hr dt_us hz -> Forall (call_ok dt_us hz) ks ->
  calls_at (c_ns (resolve_dt dt_us hr) (resolve_srate hz hr)) (stream_of (pcm_of ks)) 0 ks.
Proof.
  intros Hsup Hk. pose proof (front_geometry hr dt_us hz Hsup) as (_ & _ & G3 & _ & _ & _ & G7). cbv zeta in G3, G7.
  apply (stream_calls _ G7 ks 0 []); [constructor|reflexivity|].
  eapply Forall_impl; [|exact Hk]. intros k [H1 H2]. rewrite <- G3. split; [exact H1|].
  eapply Forall_impl; [|exact H2]. intros v. unfold s16. cbn beta. lia.
Qed.

Section floats.
  Context {F : Type} (zero : F) (add sub mul div : F -> F -> F) (sqrt : F -> F) (lt le : F -> F -> bool)
    (ofz lit : Z -> F).
  Notation run hr dt_us hz bypass ks :=
    (front_run zero add sub mul div sqrt lt le ofz lit (resolve_dt dt_us hr) (resolve_srate hz hr) bypass
       (front_init zero (resolve_dt dt_us hr) (resolve_srate hz hr)) ks).

  Lemma run_all hr dt_us hz bypass ks (Q : Prop) : supported hr dt_us hz -> Forall (call_ok dt_us hz) ks ->
    (Q -> bypass = false -> quiet hz ks) ->
    spec Q (run hr dt_us hz bypass ks)
      (fun r => map o_att (fst r) = flags hr dt_us hz (stream_of (pcm_of ks)) 0 0 0 [] (sizes_of ks) /\
                Forall2 (fun k o => out_ok bypass hr (snd k) o) ks (fst r)).
  Proof.
    intros Hsup Hk HQ. destruct (init_ok zero add sub mul div sqrt lt le ofz lit hr dt_us hz Q (stream_of (pcm_of ks)) Hsup (stream_zero _)) as (I1 & I2 & I3).
    apply (run_ok zero add sub mul div sqrt lt le ofz lit hr dt_us hz bypass Q (stream_of (pcm_of ks)) Hsup); try assumption.
    - intros q Hb t. rewrite (amp_limit_hz hr dt_us hz Hsup).
      apply (stream_all (fun v => Z.abs v <= safe_amplitude hz)); [unfold safe_amplitude; destruct (hz =? 8000); cbn; lia|]. exact (HQ q Hb).
    - apply calls_stream; assumption.
  Qed.

  (** ** C29 *)

  (** For every configuration, every sequence of frames and any arithmetic of floats (also one
      with not-a-number values), no access is out of an array; the postfilter is active only
      with a pitch and out of high resolution. *)
  Theorem C29_in_arrays hr dt_us hz bypass ks :
    supported hr dt_us hz -> Forall (call_ok dt_us hz) ks ->
    exists outs st o, run hr dt_us hz bypass ks = Some (outs, st, o) /\ zlen outs = zlen ks /\
      Forall2 (fun k r =>
        (bypass = true -> o_present r = false /\ o_data r = snd k) /\
        (bypass = false -> l_active (o_data r) = 0 \/ l_active (o_data r) = 1 /\ o_present r = true /\ hr = false)) ks outs.
  Proof.
    intros Hsup Hk. pose proof (run_all hr dt_us hz bypass ks False Hsup Hk ltac:(tauto)) as H. unfold spec in H.
    destruct (run hr dt_us hz bypass ks) as [[[outs st] o]|]; [|contradiction]. destruct H as [[_ H] _]. cbn [fst] in H.
    exists outs, st, o. split; [reflexivity|]. split; [unfold zlen; f_equal; clear - H; induction H; cbn [length]; congruence|].
    revert H. generalize ks outs. clear. intros ks outs. induction 1 as [|k r ks outs H _ IH]; constructor; [|exact IH].
    unfold out_ok in H. destruct bypass; [|destruct H as [H _]]; split; try discriminate; intros _; exact H.
  Qed.

  (** ** C27 *)

  (** Encoder to decoder, for every signal and history: a pitch found by the analysis has an
      index of 9 bits, from which the decoder recovers the lag that the encoder keeps. *)
  Theorem C27_found_pitch hr dt_us hz ks :
    supported hr dt_us hz -> Forall (call_ok dt_us hz) ks ->
    exists outs st o, run hr dt_us hz false ks = Some (outs, st, o) /\
      Forall (fun r => o_present r = true ->
        128 <= o_pitch r <= 912 /\ 0 <= l_pitch (o_data r) < 512 /\ index_pitch (l_pitch (o_data r)) = o_pitch r) outs.
  Proof.
    intros Hsup Hk. pose proof (run_all hr dt_us hz false ks False Hsup Hk ltac:(tauto)) as H. unfold spec in H.
    destruct (run hr dt_us hz false ks) as [[[outs st] o]|]; [|contradiction]. destruct H as [[_ H] _]. cbn [fst] in H.
    exists outs, st, o. split; [reflexivity|].
    revert H. generalize ks outs. clear. intros ks outs. induction 1 as [|k r ks outs H _ IH]; constructor; [|exact IH].
    cbn [out_ok] in H. destruct H as [_ H]. intros Hp. destruct (H Hp) as (e & f & Hf & E).
    pose proof (pitch_bounds e f Hf) as B. destruct Hf as (F1 & F2 & F3 & F4 & F5).
    pose proof (C27_round_trip e f F1 F2 F3 F4 F5) as RT. rewrite <- E in RT, B. cbn [fst] in B. tauto.
  Qed.

  (** ** C30 *)

  (** The attack detector is exact: its flags are those of the specification in unbounded
      integers, for every signal; without pitch analysis no operation overflows. *)
  Theorem C30_attack_detector hr dt_us hz bypass ks :
    supported hr dt_us hz -> Forall (call_ok dt_us hz) ks ->
    exists outs st o, run hr dt_us hz bypass ks = Some (outs, st, o) /\
      map o_att outs = flags hr dt_us hz (stream_of (pcm_of ks)) 0 0 0 [] (sizes_of ks) /\
      (bypass = true -> o = false).
  Proof.
    intros Hsup Hk. assert (HQ : bypass = true -> bypass = false -> quiet hz ks) by (intros ->; discriminate).
    pose proof (run_all hr dt_us hz bypass ks (bypass = true) Hsup Hk HQ) as H. unfold spec in H.
    destruct (run hr dt_us hz bypass ks) as [[[outs st] o]|]; [|contradiction]. destruct H as [[H _] Ho].
    exists outs, st, o. auto.
  Qed.

  (** The whole front end does not overflow, up to -3 dB at 8 kHz and -6.4 dB at other rates.
      Missing: larger amplitudes; see the refutation below. *)
  Theorem C30_no_overflow_partial hr dt_us hz ks :
    supported hr dt_us hz -> Forall (call_ok dt_us hz) ks -> quiet hz ks ->
    exists outs st, run hr dt_us hz false ks = Some (outs, st, false).
  Proof.
    intros Hsup Hk Hq. pose proof (run_all hr dt_us hz false ks True Hsup Hk (fun _ _ => Hq)) as H. unfold spec in H.
    destruct (run hr dt_us hz false ks) as [[[outs st] o]|]; [|contradiction]. destruct H as [_ Ho].
    exists outs, st. rewrite (Ho I). reflexivity.
  Qed.

  (** ** C36 *)

  (** Under the same bound the memories of the pitch analysis are, after any number of frames,
      the last 384 samples at 12.8 kHz and the last 178 at 6.4 kHz of the stream: the
      resampling is seamless at the frame boundaries. *)
  Theorem C36_seamless_resampling hr dt_us hz ks :
    supported hr dt_us hz -> Forall (call_ok dt_us hz) ks -> quiet hz ks ->
    exists outs st p step w h, run hr dt_us hz false ks = Some (outs, st, false) /\
      step * 12800 = p * hz /\ zlen h = p * w /\
      resampler (resolve_srate hz hr) = ret (p, step, w, h) /\
      let y12 := at_12k8 (interpolated p step w h (stream_of (pcm_of ks))) in
      let y6 := at_6k4 (if dt_us =? 7500 then 45 else 25) y12 in
      let n := dt_us * 12800 / 1000000 * zlen ks in
      n_x12k8 (f_ltpf st) = map (fun i => y12 (n - 384 + Z.of_nat i)) (seq 0 384) /\
      n_x6k4 (f_ltpf st) = map (fun i => y6 (n / 2 - 178 + Z.of_nat i)) (seq 0 178).
  Proof.
    intros Hsup Hk Hq. destruct (C30_no_overflow_partial hr dt_us hz ks Hsup Hk Hq) as (outs & st & Er).
    pose proof (front_geometry hr dt_us hz Hsup) as G. cbv zeta in G. destruct G as (G1 & G2 & G3 & G4 & G5 & G6 & G7).
    destruct (resampler_all (resolve_srate hz hr) G2) as (p & step & w & h & S & Es & R & HU).
    exists outs, st, p, step, w, h. split; [exact Er|]. split.
    { clear - Hsup Es. assert (E : exists p' s' w' h', resampler (resolve_srate hz hr) = ret (p', s', w', h') /\ s' * 12800 = p' * hz).
      { supported_case Hsup; eexists _, _, _, _; (split; [reflexivity|reflexivity]). }
      destruct E as (p' & s' & w' & h' & E1 & E2). rewrite E1 in Es. injection Es as -> -> _ _. exact E2. }
    split; [apply (ro_h _ _ _ _ _ _ R)|]. split; [exact Es|].
    destruct (init_ok zero add sub mul div sqrt lt le ofz lit hr dt_us hz True (stream_of (pcm_of ks)) Hsup (stream_zero _)) as (I1 & _ & _).
    assert (HA : forall t, Z.abs (stream_of (pcm_of ks) t) <= amp_limit (resolve_srate hz hr)).
    { intros t. rewrite (amp_limit_hz hr dt_us hz Hsup).
      apply (stream_all (fun v => Z.abs v <= safe_amplitude hz)); [unfold safe_amplitude; destruct (hz =? 8000); cbn; lia|exact Hq]. }
    assert (H16 : forall t, s16 (stream_of (pcm_of ks) t)).
    { apply (stream_all s16); [unfold s16; lia|]. unfold pcm_of. apply Forall_map. eapply Forall_impl; [|exact Hk].
      intros k [_ H]. eapply Forall_impl; [|exact H]. intros v. unfold s16. cbn beta. lia. }
    assert (HS0 : streams_ok (resolve_dt dt_us hr) p step w h (stream_of (pcm_of ks)) 0
      (f_ltpf (front_init zero (resolve_dt dt_us hr) (resolve_srate hz hr)))).
    { unfold streams_ok. rewrite !Z.mul_0_r. split; [reflexivity|].
      assert (E : forall n i, znth (repeat 0 n) i 0 = 0) by (intros n i; unfold znth; destruct (i <? 0); [reflexivity|apply nth_repeat]).
      assert (E12 : forall k, k < 0 -> at_12k8 (interpolated p step w h (stream_of (pcm_of ks))) k = 0).
      { intros k H. unfold at_12k8. destruct (Z.ltb_spec k 0); [reflexivity|lia]. }
      split; (split; [cbn [front_init f_ltpf n_x12k8 n_x6k4]; rewrite zlen_repeat; reflexivity|]); intros i Hi;
        cbn [front_init f_ltpf n_x12k8 n_x6k4]; rewrite E.
      - rewrite E12 by lia. reflexivity.
      - unfold at_6k4, delay_6k4. cbv zeta. rewrite !E12; [reflexivity|..]; destruct (resolve_dt dt_us hr =? 2); lia. }
    pose proof (run_streams zero add sub mul div sqrt lt le ofz lit _ _ p step w h S (stream_of (pcm_of ks)) G1 G4 Es R HU HA H16
      ks 0 _ _ _ ltac:(lia) (calls_stream hr dt_us hz ks Hsup Hk) I1 HS0 Er) as HS. cbn [snd] in HS. rewrite Z.add_0_l in HS.
    destruct HS as (_ & HS1 & HS2). cbv zeta.
    assert (En : dt_us * 12800 / 1000000 = (1 + resolve_dt dt_us hr) * 32 /\ (if dt_us =? 7500 then 45 else 25) = delay_6k4 (resolve_dt dt_us hr))
      by (clear - Hsup; supported_case Hsup; split; reflexivity).
    destruct En as [En Ed]. rewrite En, Ed.
    replace ((1 + resolve_dt dt_us hr) * 32 * zlen ks / 2) with ((1 + resolve_dt dt_us hr) * 16 * zlen ks)
      by (rewrite <- (Z.div_mul ((1 + resolve_dt dt_us hr) * 16 * zlen ks) 2) by lia; f_equal; ring).
    assert (L : forall (l : list Z) len Y t, last_of (Z.of_nat len) Y t l -> l = map (fun i => Y (t - Z.of_nat len + Z.of_nat i)) (seq 0 len)).
    { clear. intros l len Y t [Hl HY]. apply (nth_ext _ _ 0 0); [rewrite map_length, seq_length; unfold zlen in Hl; lia|].
      intros i Hi. unfold zlen in Hl. specialize (HY (Z.of_nat i) ltac:(lia)). unfold znth in HY. rewrite Nat2Z.id in HY.
      destruct (Z.ltb_spec (Z.of_nat i) 0); [lia|]. rewrite HY.
      rewrite (nth_indep _ 0 (Y (t - Z.of_nat len + Z.of_nat 0))) by (rewrite map_length, seq_length; lia).
      rewrite (map_nth (fun i => Y (t - Z.of_nat len + Z.of_nat i))), seq_nth by lia. reflexivity. }
    split; [apply (L _ 384%nat), HS1|apply (L _ 178%nat), HS2].
  Qed.
End floats.

(** The claim is false at full scale. A square wave of 100 Hz at 16 kHz makes the filter leave
    the 32 bits of its result in the first frame: one of full scale by the conversion of
    src/ltpf.c line 192, and one of amplitude 30827 by the signed addition of line 238. *)
Definition square (a b : Z) : list Z := repeat a 80 ++ repeat b 80.
Definition filtered_16k (pcm : list Z) (k : Z) : Z := hp_output (interpolated 4 5 20 h_16k (stream_of [pcm])) k.

Theorem C30_full_scale_refuted :
  (exists pcm k, zlen pcm = samples 10000 16000 /\ Forall (fun v => - 32768 <= v <= 32767) pcm /\ 0 <= k < 128 /\
     filtered_16k pcm k < INT_MIN) /\
  (exists pcm k, zlen pcm = samples 10000 16000 /\ Forall (fun v => - 32768 <= v <= 32767) pcm /\ 0 <= k < 128 /\
     filtered_16k pcm k <= INT_MAX < filtered_16k pcm k + 2 ^ 15) /\
  (exists pcm y s, zlen pcm = samples 10000 16000 /\ Forall (fun v => - 32768 <= v <= 32767) pcm /\
     resample_12k8 1 (0, 0) (repeat 0 20 ++ pcm) 20 (repeat 0 384) 256 128 = Some (y, s, true)).
Proof.
  assert (H : forall a b, - 32768 <= a <= 32767 -> - 32768 <= b <= 32767 -> Forall (fun v => - 32768 <= v <= 32767) (square a b)).
  { intros a b Ha Hb. apply Forall_forall. intros v Hv. apply in_app_or in Hv as [Hv|Hv]; apply repeat_spec in Hv; subst; assumption. }
  split; [|split].
  - exists (square 32767 (-32768)), 73. split; [reflexivity|]. split; [apply H; lia|]. split; [lia|]. vm_compute. reflexivity.
  - exists (square (-30827) 30827), 73. split; [reflexivity|]. split; [apply H; lia|]. split; [lia|]. vm_compute. split; [discriminate|reflexivity].
  - exists (square 32767 (-32768)). eexists _, _. split; [reflexivity|]. split; [apply H; lia|]. vm_compute. reflexivity.
Qed.

(** ** Examples *)

(** A burst at 32 kHz, flagged in its frame and, as it starts in the second half, in the next. *)
Definition burst : list (call * ltpf_data) :=
  [(mkCall 100 (repeat 0 320), mkLtpf 0 0);
   (mkCall 100 (repeat 0 200 ++ flat_map (fun _ => [9000; 9000; -9000; -9000]) (seq 0 30)), mkLtpf 0 0);
   (mkCall 100 (repeat 0 320), mkLtpf 0 0); (mkCall 100 (repeat 0 320), mkLtpf 0 0)].

Example C30_example :
  supported false 10000 32000 /\ Forall (call_ok 10000 32000) burst /\ quiet 32000 burst /\
  flags false 10000 32000 (stream_of (pcm_of burst)) 0 0 0 [] (sizes_of burst) = [false; true; true; false].
Proof.
  split; [split; [right; right; left; reflexivity|right; right; right; left; reflexivity]|].
  split; [|split; [|vm_compute; reflexivity]].
  - assert (E : forallb (fun k => (zlen (k_pcm (fst k)) =? samples 10000 32000) && forallb (fun v => (-32768 <=? v) && (v <=? 32767)) (k_pcm (fst k))) burst = true)
      by (vm_compute; reflexivity).
    rewrite forallb_forall in E. apply Forall_forall. intros k Hk. specialize (E k Hk). apply andb_prop in E as [E1 E2].
    split; [apply Z.eqb_eq, E1|]. rewrite forallb_forall in E2. apply Forall_forall. intros v Hv. specialize (E2 v Hv). lia.
  - assert (E : forallb (forallb (fun v => Z.abs v <=? safe_amplitude 32000)) (pcm_of burst) = true) by (vm_compute; reflexivity).
    rewrite forallb_forall in E. apply Forall_forall. intros l Hl. specialize (E l Hl). rewrite forallb_forall in E.
    apply Forall_forall. intros v Hv. apply Z.leb_le, E, Hv.
Qed.

(** A tone of 320 Hz at 8 kHz in frames of 5 ms, with integers times 10^18 as floats: the pitch
    is found in the second frame, of 40 samples at 12.8 kHz. *)
Definition tone : list (call * ltpf_data) :=
  let wave := [0; 2487; 4818; 6845; 8443; 9511; 9980; 9823; 9048; 7705; 5878; 3681; 1253; -1253; -3681; -5878; -7705; -9048; -9823; -9980; -9511; -8443; -6845; -4818; -2487] in
  map (fun o => (mkCall 40 (map (fun i => nth ((o + i) mod 25) wave 0) (seq 0 40)), mkLtpf 0 0)) [0; 40]%nat.
Definition fx_one : Z := 10 ^ 18.
Definition run_fx (ks : list (call * ltpf_data)) :=
  front_run 0 Z.add Z.sub (fun a b => a * b / fx_one) (fun a b => if b =? 0 then 0 else a * fx_one / b) (fun a => Z.sqrt (a * fx_one)) Z.ltb Z.leb
    (fun z => z * fx_one) (fun z => z) 1 0 false (front_init 0 1 0) ks.

Example C27_tone : match run_fx tone with
  | Some (outs, _, o) => map (fun r => (o_present r, o_pitch r, l_pitch (o_data r))) outs = [(false, 0, 0); (true, 160, 32)] /\ o = false
  | None => False end.
Proof. vm_compute. auto. Qed.

Print Assumptions C29_in_arrays.
Print Assumptions C27_found_pitch.
Print Assumptions C30_attack_detector.
Print Assumptions C30_no_overflow_partial.
Print Assumptions C30_full_scale_refuted.
Print Assumptions C36_seamless_resampling.
