(** * Proofs about the configuration API *)
From Coq Require Import ZArith List Bool Lia ZifyBool.
From Verif Require Import Base ConfigModel ConfigSpec.
Import ListNotations.
Local Open Scope Z_scope.
Ltac Zify.zify_post_hook ::= Z.div_mod_to_equations.

Lemma cint_some x : INT_MIN <= x <= INT_MAX -> cint x = Some x.
Proof.
  intros H. unfold cint.
  destruct (INT_MIN <=? x) eqn:E1; destruct (x <=? INT_MAX) eqn:E2;
    cbn [andb]; try reflexivity; lia.
Qed.

Lemma c64_some x : - 2 ^ 63 <= x < 2 ^ 63 -> c64 x = Some x.
Proof.
  intros H. unfold c64.
  destruct (- 2 ^ 63 <=? x) eqn:E1; destruct (x <? 2 ^ 63) eqn:E2;
    cbn [andb]; try reflexivity; lia.
Qed.

Ltac ifs :=
  repeat match goal with
  | H : context [if ?c then _ else _] |- _ => destruct c eqn:?; try lia
  | |- context [if ?c then _ else _] => destruct c eqn:?; try lia
  end.

(** Case analysis on the argument values tested by the resolvers. *)
Lemma supported_cases hr dt sr :
  supported hr dt sr ->
  In (hr, dt, sr)
   (map (fun p => (false, fst p, snd p))
     (list_prod [2500; 5000; 7500; 10000] [8000; 16000; 24000; 32000; 48000]) ++
    map (fun p => (true, fst p, snd p))
     (list_prod [2500; 5000; 10000] [48000; 96000])).
Proof.
  intros [Hd Hs]. unfold supported_dt in Hd. unfold supported_sr in Hs.
  destruct hr.
  - assert (dt = 2500 \/ dt = 5000 \/ dt = 10000) as Hd'
      by (intuition congruence).
    clear Hd. destruct Hd' as [->|[->| ->]]; destruct Hs as [->| ->];
      cbn; tauto.
  - assert (dt = 2500 \/ dt = 5000 \/ dt = 10000 \/ dt = 7500) as Hd'
      by tauto.
    clear Hd. destruct Hd' as [->|[->|[->| ->]]];
      destruct Hs as [->|[->|[->|[->| ->]]]]; cbn; tauto.
Qed.

Lemma unsupported_resolve hr dt sr :
  ~ supported hr dt sr ->
  (NUM_DT <=? resolve_dt dt hr) || (NUM_SRATE <=? resolve_srate sr hr) = true.
Proof.
  intros H. destruct (_ || _) eqn:E; [reflexivity|]. exfalso. apply H.
  apply orb_false_iff in E. destruct E as [E1 E2].
  unfold supported, supported_dt, supported_sr.
  unfold resolve_dt, NUM_DT, DT_2M5, DT_5M, DT_7M5, DT_10M in E1.
  unfold resolve_srate, NUM_SRATE, SRATE_8K, SRATE_16K, SRATE_24K, SRATE_32K,
    SRATE_48K, SRATE_48K_HR, SRATE_96K_HR in E2.
  destruct hr; cbn [negb andb] in *; cbv iota in *; ifs; intuition lia.
Qed.

Ltac supported_case H :=
  apply supported_cases in H; cbn [map list_prod app fst snd] in H;
  repeat (destruct H as [H|H]; [inversion H; subst; clear H|]); [..|destruct H].

(** ** C01 *)
Lemma frame_samples_ok hr dt_us sr_hz :
  supported hr dt_us sr_hz ->
  hr_frame_samples hr dt_us sr_hz = Some (samples dt_us sr_hz) /\
  samples dt_us sr_hz * 1000000 = dt_us * sr_hz.
Proof. intros H. supported_case H; split; reflexivity. Qed.

Lemma frame_samples_err hr dt_us sr_hz :
  ~ supported hr dt_us sr_hz -> hr_frame_samples hr dt_us sr_hz = Some (-1).
Proof.
  intros H. unfold hr_frame_samples. rewrite unsupported_resolve; auto.
Qed.

(** ** C04 *)
Lemma delay_ok hr dt_us sr_hz :
  supported hr dt_us sr_hz ->
  hr_delay_samples hr dt_us sr_hz =
    Some (samples (if dt_us =? 7500 then 4000 else 2500) sr_hz).
Proof. intros H. supported_case H; reflexivity. Qed.

Lemma delay_err hr dt_us sr_hz :
  ~ supported hr dt_us sr_hz -> hr_delay_samples hr dt_us sr_hz = Some (-1).
Proof.
  intros H. unfold hr_delay_samples. rewrite unsupported_resolve; auto.
Qed.

(** ** C03 *)
Lemma block_bytes_ok hr dt_us sr_hz nch bitrate :
  supported hr dt_us sr_hz -> 1 <= nch <= 8 -> 0 <= bitrate ->
  hr_frame_block_bytes hr dt_us sr_hz nch bitrate =
    Some (clip (Z.min bitrate 5376000 * (dt_us / 2500) / 3200)
            (nch * min_size hr dt_us sr_hz) (nch * max_size hr dt_us sr_hz)).
Proof.
  intros H Hn Hb.
  assert (exists m M d, min_size hr dt_us sr_hz = m /\ max_size hr dt_us sr_hz = M /\
     dt_us / 2500 = 1 + d /\ resolve_dt dt_us hr = d /\ 0 <= d <= 3 /\
     20 <= m /\ m <= M /\ M <= 625 /\
     min_frame_bytes (resolve_dt dt_us hr) (resolve_srate sr_hz hr) = m /\
     max_frame_bytes (resolve_dt dt_us hr) (resolve_srate sr_hz hr) = M /\
     (NUM_DT <=? resolve_dt dt_us hr) || (NUM_SRATE <=? resolve_srate sr_hz hr) = false)
    as (m & M & d & Em & EM & Ed & Er & Hd & Hm & HmM & HM & Emf & EMf & Ev).
  { supported_case H; do 3 eexists; repeat split; try reflexivity; cbv; congruence. }
  unfold hr_frame_block_bytes. cbv zeta. rewrite Ev, Emf, EMf, Em, EM, Ed, Er.
  replace (nch <? 1) with false by lia. replace (8 <? nch) with false by lia.
  replace (bitrate <? 0) with false by lia. cbn [orb].
  unfold cmul, cadd, cdiv.
  rewrite (cint_some (8 * 672000)) by (cbv; intuition congruence). cbn [bind].
  rewrite (cint_some (1 + d)) by (unfold INT_MIN, INT_MAX; lia). cbn [bind].
  assert (Hc : clip bitrate 0 (8 * 672000) = Z.min bitrate 5376000)
    by (unfold clip; lia).
  rewrite Hc. set (b := Z.min bitrate 5376000).
  assert (0 <= b <= 5376000) by lia.
  assert (0 <= b * (1 + d) <= 21504000) by nia.
  rewrite (cint_some (b * (1 + d))) by (unfold INT_MIN, INT_MAX; lia). cbn [bind].
  change (3200 =? 0) with false. cbv iota.
  rewrite Z.quot_div_nonneg by lia.
  rewrite (cint_some (b * (1 + d) / 3200)) by (unfold INT_MIN, INT_MAX; lia).
  cbn [bind].
  rewrite (cint_some (nch * m)) by (unfold INT_MIN, INT_MAX; nia). cbn [bind].
  rewrite (cint_some (nch * M)) by (unfold INT_MIN, INT_MAX; nia). cbn [bind].
  reflexivity.
Qed.

Lemma block_bytes_err hr dt_us sr_hz nch bitrate :
  ~ (supported hr dt_us sr_hz /\ 1 <= nch <= 8 /\ 0 <= bitrate) ->
  hr_frame_block_bytes hr dt_us sr_hz nch bitrate = Some (-1).
Proof.
  intros H. unfold hr_frame_block_bytes. cbv zeta.
  match goal with |- (if ?c then _ else _) = _ => destruct c eqn:E end;
    [reflexivity|].
  exfalso. apply H.
  repeat (rewrite orb_false_iff in E). destruct E as [[[[E1 E2] E3] E4] E5].
  split; [|lia].
  destruct (Z.eq_dec 0 0) as [_|]; [|congruence].
  unfold supported, supported_dt, supported_sr.
  unfold resolve_dt, NUM_DT, DT_2M5, DT_5M, DT_7M5, DT_10M in E1.
  unfold resolve_srate, NUM_SRATE, SRATE_8K, SRATE_16K, SRATE_24K, SRATE_32K,
    SRATE_48K, SRATE_48K_HR, SRATE_96K_HR in E2.
  destruct hr; cbn [negb andb] in *; cbv iota in *; ifs; intuition lia.
Qed.

Lemma size_limits_ok hr dt_us sr_hz :
  supported hr dt_us sr_hz ->
  20 <= min_size hr dt_us sr_hz /\
  min_size hr dt_us sr_hz < max_size hr dt_us sr_hz /\
  max_size hr dt_us sr_hz <= 625 /\
  5376000 * (dt_us / 2500) / 3200 >=
    (if negb hr && (dt_us =? 2500) then 4 else 8) * max_size hr dt_us sr_hz.
Proof. intros H. supported_case H; cbv; intuition congruence. Qed.

Lemma dt_us_pos hr dt_us sr_hz :
  supported hr dt_us sr_hz -> 1 <= dt_us / 2500 <= 4 /\ dt_us = 2500 * (dt_us / 2500).
Proof. intros H. supported_case H; cbv; intuition congruence. Qed.

Lemma block_bytes_spec hr dt_us sr_hz nch bitrate :
  supported hr dt_us sr_hz -> 1 <= nch <= 8 -> 0 <= bitrate ->
  ~ (hr = false /\ dt_us = 2500 /\ 4 < nch) ->
  exists n, hr_frame_block_bytes hr dt_us sr_hz nch bitrate = Some n /\
    nch * min_size hr dt_us sr_hz <= n <= nch * max_size hr dt_us sr_hz /\
    (bitrate = 0 -> n = nch * min_size hr dt_us sr_hz) /\
    (bitrate = INT_MAX -> n = nch * max_size hr dt_us sr_hz) /\
    (** inside of the limits, n is the integer part of bitrate * duration / 8 *)
    (nch * min_size hr dt_us sr_hz < n < nch * max_size hr dt_us sr_hz ->
       n = bitrate * dt_us / 8000000) /\
    (nch * min_size hr dt_us sr_hz = n -> bitrate * dt_us / 8000000 <= n) /\
    (nch * max_size hr dt_us sr_hz = n -> bitrate * dt_us / 8000000 >= n).
Proof.
  intros H Hn Hb Hx0. eexists. split; [apply block_bytes_ok; auto|].
  pose proof (size_limits_ok _ _ _ H) as (Hm & HmM & HM & Hx).
  pose proof (dt_us_pos _ _ _ H) as (Hd & Hd2).
  set (m := min_size hr dt_us sr_hz) in *.
  set (M := max_size hr dt_us sr_hz) in *.
  set (d := dt_us / 2500) in *.
  assert (Hdiv : bitrate * dt_us / 8000000 = bitrate * d / 3200).
  { rewrite Hd2. replace (bitrate * (2500 * d)) with ((bitrate * d) * 2500) by ring.
    change 8000000 with (3200 * 2500). rewrite Z.div_mul_cancel_r by lia. reflexivity. }
  rewrite Hdiv. clear Hdiv.
  assert (nch * m < nch * M) by nia.
  assert (nch * M <= (if negb hr && (dt_us =? 2500) then 4 else 8) * M).
  { destruct (negb hr && (dt_us =? 2500)) eqn:E; [|nia].
    assert (nch <= 4); [|nia]. apply andb_true_iff in E. destruct E as [E1 E2].
    destruct hr; [discriminate|].
    apply Z.nlt_ge. intros Hc. apply Hx0. repeat split; lia. }
  set (lo := nch * m) in *. set (hi := nch * M) in *.
  assert (Hq : Z.min bitrate 5376000 * d / 3200 = bitrate * d / 3200 \/
               (bitrate > 5376000 /\ Z.min bitrate 5376000 * d / 3200 >= hi /\
                bitrate * d / 3200 >= hi)).
  { destruct (Z.leb_spec bitrate 5376000) as [Hle|Hgt].
    - left. f_equal. nia.
    - right. rewrite Z.min_r by lia. split; [lia|]. split; [lia|].
      assert (5376000 * d <= bitrate * d) by nia.
      assert (5376000 * d / 3200 <= bitrate * d / 3200)
        by (apply Z.div_le_mono; lia). lia. }
  assert (Hz0 : bitrate = 0 -> bitrate * d / 3200 = 0)
    by (intros ->; reflexivity).
  set (q := Z.min bitrate 5376000 * d / 3200) in *.
  set (q' := bitrate * d / 3200) in *.
  assert (Hmx : bitrate = INT_MAX -> q >= hi).
  { intros E. unfold q. rewrite E. unfold INT_MAX.
    change (Z.min (2 ^ 31 - 1) 5376000) with 5376000. lia. }
  assert (0 <= lo) by (unfold lo; nia).
  clearbody q q' lo hi m M. clear Hd2 Hx Hx0. unfold clip. lia.
Qed.

Lemma block_bytes_mono hr dt_us sr_hz nch b1 b2 n1 n2 :
  supported hr dt_us sr_hz -> 1 <= nch <= 8 -> 0 <= b1 <= b2 ->
  hr_frame_block_bytes hr dt_us sr_hz nch b1 = Some n1 ->
  hr_frame_block_bytes hr dt_us sr_hz nch b2 = Some n2 ->
  n1 <= n2.
Proof.
  intros H Hn Hb. rewrite !block_bytes_ok by (auto; lia).
  intros E1 E2. injection E1 as <-. injection E2 as <-.
  pose proof (dt_us_pos _ _ _ H) as (Hd & _).
  set (d := dt_us / 2500) in *.
  assert (Z.min b1 5376000 * d <= Z.min b2 5376000 * d) by nia.
  assert (Z.min b1 5376000 * d / 3200 <= Z.min b2 5376000 * d / 3200)
    by (apply Z.div_le_mono; lia).
  unfold clip. lia.
Qed.

Lemma resolve_bitrate_ok hr dt_us sr_hz nbytes :
  supported hr dt_us sr_hz -> 0 <= nbytes <= INT_MAX ->
  hr_resolve_bitrate hr dt_us sr_hz nbytes =
    Some (Z.min ((nbytes * 3200 + (dt_us / 2500 - 1)) / (dt_us / 2500)) INT_MAX).
Proof.
  intros H Hn. pose proof (dt_us_pos _ _ _ H) as (Hd & _).
  assert (resolve_dt dt_us hr = dt_us / 2500 - 1 /\
     (NUM_DT <=? resolve_dt dt_us hr) || (NUM_SRATE <=? resolve_srate sr_hz hr) = false)
    as [Er Ev] by (supported_case H; split; reflexivity).
  unfold hr_resolve_bitrate. cbv zeta. rewrite Ev.
  replace (nbytes <? 0) with false by lia. cbn [orb].
  rewrite Er. set (d := dt_us / 2500) in *. clearbody d.
  unfold INT_MAX in *.
  rewrite (c64_some (nbytes * 3200)) by lia. cbn [bind].
  rewrite (c64_some (nbytes * 3200 + (d - 1))) by lia. cbn [bind].
  replace (1 + (d - 1)) with d by lia.
  replace (d =? 0) with false by lia. 
  rewrite Z.quot_div_nonneg by lia.
  assert (0 <= (nbytes * 3200 + (d - 1)) / d <= nbytes * 3200 + (d - 1)).
  { split; [apply Z.div_pos; lia|]. apply Z.div_le_upper_bound; nia. }
  rewrite c64_some by lia. cbn [bind].
  apply cint_some. unfold INT_MIN, INT_MAX. lia.
Qed.

Lemma resolve_bitrate_err hr dt_us sr_hz nbytes :
  ~ supported hr dt_us sr_hz \/ nbytes < 0 ->
  hr_resolve_bitrate hr dt_us sr_hz nbytes = Some (-1).
Proof.
  intros H. unfold hr_resolve_bitrate. cbv zeta.
  destruct H as [H|H].
  - rewrite unsupported_resolve; auto.
  - replace (nbytes <? 0) with true by lia. rewrite orb_true_r. reflexivity.
Qed.

(** ** C02 *)
Lemma bytes_bitrate_bytes hr dt_us sr_hz n :
  supported hr dt_us sr_hz ->
  min_size hr dt_us sr_hz <= n <= max_size hr dt_us sr_hz ->
  exists b, hr_resolve_bitrate hr dt_us sr_hz n = Some b /\
    0 < b /\
    hr_frame_bytes hr dt_us sr_hz b = Some n /\
    (** least such bitrate *)
    (forall b', 0 <= b' < b -> min_size hr dt_us sr_hz < n ->
       exists n', hr_frame_bytes hr dt_us sr_hz b' = Some n' /\ n' < n).
Proof.
  intros H Hn. pose proof (size_limits_ok _ _ _ H) as (Hm & HmM & HM & Hx).
  pose proof (dt_us_pos _ _ _ H) as (Hd & _).
  rewrite resolve_bitrate_ok by (auto; unfold INT_MAX; lia).
  eexists. split; [reflexivity|].
  unfold hr_frame_bytes.
  set (d := dt_us / 2500) in *.
  set (m := min_size hr dt_us sr_hz) in *.
  set (M := max_size hr dt_us sr_hz) in *.
  assert (Hb : n * 3200 <= ((n * 3200 + (d - 1)) / d) * d <= n * 3200 + (d - 1)).
  { assert (d = 1 \/ d = 2 \/ d = 3 \/ d = 4) as Hdd by lia.
    clear - Hdd. destruct Hdd as [->|[->|[->| ->]]]; lia. }
  set (b := (n * 3200 + (d - 1)) / d) in *. clearbody b.
  assert (b <= 625 * 3200 + 3) by nia.
  assert (0 < b) by nia.
  rewrite Z.min_l by (unfold INT_MAX; lia).
  split; [assumption|]. split.
  - rewrite block_bytes_ok by (auto; lia). fold d m M. f_equal.
    rewrite Z.min_l by lia.
    assert (b * d / 3200 = n).
    { symmetry. apply Z.div_unique with (r := b * d - 3200 * n); lia. }
    unfold clip. lia.
  - intros b' Hb' Hmn. rewrite block_bytes_ok by (auto; lia). fold d m M.
    eexists. split; [reflexivity|].
    rewrite Z.min_l by lia.
    assert (b' * d < n * 3200) by nia.
    assert (b' * d / 3200 < n) by (apply Z.div_lt_upper_bound; lia).
    unfold clip. lia.
Qed.

Lemma bitrate_bytes_bitrate hr dt_us sr_hz bitrate n :
  supported hr dt_us sr_hz -> 0 <= bitrate <= INT_MAX ->
  hr_frame_bytes hr dt_us sr_hz bitrate = Some n ->
  exists b, hr_resolve_bitrate hr dt_us sr_hz n = Some b /\
    (b <= bitrate \/ n = min_size hr dt_us sr_hz).
Proof.
  intros H Hb. unfold hr_frame_bytes.
  rewrite block_bytes_ok, !Z.mul_1_l by (auto; lia). intros E. injection E as En.
  pose proof (size_limits_ok _ _ _ H) as (Hm & HmM & HM & Hx).
  pose proof (dt_us_pos _ _ _ H) as (Hd & _).
  assert (Hn : 20 <= n <= 625).
  { clear Hx. revert En. generalize (Z.min bitrate 5376000 * (dt_us / 2500) / 3200).
    intros z En. unfold clip in En. lia. }
  rewrite resolve_bitrate_ok by (auto; unfold INT_MAX; lia).
  eexists. split; [reflexivity|].
  set (d := dt_us / 2500) in *.
  set (m := min_size hr dt_us sr_hz) in *.
  set (M := max_size hr dt_us sr_hz) in *.
  destruct (Z.eq_dec n m) as [|Hne]; [right; assumption|left].
  assert (Hnd : n * 3200 <= bitrate * d).
  { assert (Hq : n <= Z.min bitrate 5376000 * d / 3200) by (unfold clip in En; lia).
    assert (Z.min bitrate 5376000 * d <= bitrate * d) by nia.
    clearbody d. lia. }
  assert ((n * 3200 + (d - 1)) / d <= bitrate).
  { assert ((n * 3200 + (d - 1)) / d < bitrate + 1); [|lia].
    apply Z.div_lt_upper_bound; nia. }
  lia.
Qed.

(** ** C05, C06 *)

(** All configurations accepted by the setup functions. *)
Definition all_setups : list (bool * Z * Z * Z) :=
  map (fun p => (false, fst (fst p), snd (fst p), snd p))
    (list_prod (list_prod [2500; 5000; 7500; 10000]
                          [8000; 16000; 24000; 32000; 48000])
               [8000; 16000; 24000; 32000; 48000]) ++
  map (fun p => (true, fst (fst p), snd (fst p), snd p))
    (list_prod (list_prod [2500; 5000; 10000] [48000; 96000]) [48000; 96000]).

Definition eff_pcm (sr_hz sr_pcm_hz : Z) : Z :=
  if sr_pcm_hz <=? 0 then sr_hz else sr_pcm_hz.

Lemma in_all_setups hr dt_us sr_hz srp :
  supported hr dt_us sr_hz -> supported hr dt_us srp ->
  In (hr, dt_us, sr_hz, srp) all_setups.
Proof.
  intros [Hd Hs] [_ Hp]. unfold supported_dt in Hd. unfold supported_sr in *.
  unfold all_setups.
  apply in_or_app. destruct hr; [right|left]; apply in_map_iff.
  - exists ((dt_us, sr_hz), srp). split; [reflexivity|].
    repeat apply in_prod; cbn; intuition congruence.
  - exists ((dt_us, sr_hz), srp). split; [reflexivity|].
    repeat apply in_prod; cbn; intuition congruence.
Qed.

Lemma resolve_valid_sr hr sr_hz :
  (NUM_SRATE <=? resolve_srate sr_hz hr) = false <-> supported_sr hr sr_hz.
Proof.
  unfold supported_sr.
  unfold resolve_srate, NUM_SRATE, SRATE_8K, SRATE_16K, SRATE_24K, SRATE_32K,
    SRATE_48K, SRATE_48K_HR, SRATE_96K_HR.
  destruct hr; cbn [negb andb] in *; cbv iota in *; ifs; intuition lia.
Qed.
Lemma resolve_valid_dt hr dt_us :
  (NUM_DT <=? resolve_dt dt_us hr) = false <-> supported_dt hr dt_us.
Proof.
  unfold supported_dt, resolve_dt, NUM_DT, DT_2M5, DT_5M, DT_7M5, DT_10M.
  destruct hr; cbn [negb andb]; ifs; intuition lia.
Qed.

Lemma resolve_srate_le hr a b :
  supported_sr hr a -> supported_sr hr b ->
  (resolve_srate b hr <? resolve_srate a hr) = (b <? a).
Proof.
  unfold supported_sr. destruct hr.
  - intros [->| ->] [->| ->]; reflexivity.
  - intros [->|[->|[->|[->| ->]]]] [->|[->|[->|[->| ->]]]]; reflexivity.
Qed.

Lemma resolve_srate_bound hr a : resolve_srate a hr <= NUM_SRATE.
Proof.
  unfold resolve_srate, NUM_SRATE, SRATE_8K, SRATE_16K, SRATE_24K, SRATE_32K,
    SRATE_48K, SRATE_48K_HR, SRATE_96K_HR.
  repeat match goal with |- (if ?c then _ else _) <= _ => destruct c; [lia|] end.
  lia.
Qed.

(** The accepted setups are exactly the supported pairs with sr <= sr_pcm. *)
Lemma setup_guard hr dt_us sr_hz srp :
  (NUM_DT <=? resolve_dt dt_us hr) || (NUM_SRATE <=? resolve_srate srp hr) ||
  (resolve_srate srp hr <? resolve_srate sr_hz hr) = false <->
  supported hr dt_us sr_hz /\ supported hr dt_us srp /\ sr_hz <= srp.
Proof.
  unfold supported. rewrite !orb_false_iff. split.
  - intros [[E1 E2] E3].
    apply resolve_valid_dt in E1. pose proof E2 as E2'. apply resolve_valid_sr in E2'.
    assert (Hs : supported_sr hr sr_hz).
    { apply resolve_valid_sr. pose proof (resolve_srate_bound hr sr_hz). lia. }
    repeat split; auto.
    rewrite (resolve_srate_le _ _ _ Hs E2') in E3. lia.
  - intros ([Hd Hs] & [_ Hp] & Hle). repeat split.
    + apply resolve_valid_dt; auto.
    + apply resolve_valid_sr; auto.
    + rewrite resolve_srate_le by auto. lia.
Qed.

(** Layout of an encoder: history and input of [nt + ns] 16-bit samples,
    [ns] floats of time/spectrum and [nd] floats of delayed samples. *)
Definition enc_layout_ok (c : enc_cfg) (count : Z) : bool :=
  let ns := c_ns (e_dt c) (e_srp c) in
  let nt := c_nt (e_srp c) in
  let nd := c_nd (e_dt c) (e_srp c) in
  (0 <=? e_xt c - nt) && (e_xt c + ns <=? 2 * e_xs c) && (0 <=? e_xs c) &&
  (e_xs c + ns <=? e_xd c) && (e_xd c + nd <=? count) &&
  (c_ne (e_dt c) (e_sr c) <=? c_ns (e_dt c) (e_sr c)) &&
  (c_ns (e_dt c) (e_sr c) <=? ns).

Definition enc_check (p : bool * Z * Z * Z) : bool :=
  let '(hr, dt_us, sr_hz, srp) := p in
  if sr_hz <=? srp then
    match hr_setup_encoder hr dt_us sr_hz srp, enc_buffer_count dt_us srp,
          hr_encoder_size 4 hr dt_us srp with
    | Some (Some (c, n)), Some m, Some sz =>
        (n =? m) && (4 * m =? sz) && enc_layout_ok c n
    | _, _, _ => false
    end
  else true.

Lemma enc_check_all : forallb enc_check all_setups = true.
Proof. vm_compute. reflexivity. Qed.

Definition dec_layout_ok (c : dec_cfg) (count : Z) : bool :=
  let ns := c_ns (d_dt c) (d_srp c) in
  let nh := c_nh (d_dt c) (d_srp c) in
  let nd := c_nd (d_dt c) (d_srp c) in
  (d_xh c =? 0) && (d_xs c =? nh) && (nh mod ns =? 0) && (0 <? ns) &&
  (nh + ns =? d_xd c) && (d_xd c + nd =? d_xg c) && (d_xg c + ns =? count) &&
  (0 <=? nh) && (0 <=? nd) &&
  (c_ne (d_dt c) (d_sr c) <=? c_ns (d_dt c) (d_sr c)) &&
  (c_ns (d_dt c) (d_sr c) <=? ns).

Definition dec_check (p : bool * Z * Z * Z) : bool :=
  let '(hr, dt_us, sr_hz, srp) := p in
  if sr_hz <=? srp then
    match hr_setup_decoder hr dt_us sr_hz srp, dec_buffer_count dt_us srp,
          hr_decoder_size 4 hr dt_us srp with
    | Some (Some (c, n)), Some m, Some sz =>
        (n =? m) && (4 * m =? sz) && dec_layout_ok c n
    | _, _, _ => false
    end
  else true.

Lemma dec_check_all : forallb dec_check all_setups = true.
Proof. vm_compute. reflexivity. Qed.

Lemma encoder_size_shift s hr dt_us sr_hz z :
  supported hr dt_us sr_hz -> hr_encoder_size 4 hr dt_us sr_hz = Some z ->
  hr_encoder_size s hr dt_us sr_hz = Some (s - 4 + z).
Proof.
  intros [Hd Hs]. apply resolve_valid_dt in Hd. apply resolve_valid_sr in Hs.
  unfold hr_encoder_size. rewrite Hd, Hs. cbn [orb].
  destruct (enc_buffer_count dt_us sr_hz) as [n|]; cbn [bind]; [|discriminate].
  destruct (csub n 1) as [m|]; cbn [bind]; [|discriminate].
  intros E. assert (4 + m * 4 = z) as <- by congruence. f_equal. lia.
Qed.
Lemma decoder_size_shift s hr dt_us sr_hz z :
  supported hr dt_us sr_hz -> hr_decoder_size 4 hr dt_us sr_hz = Some z ->
  hr_decoder_size s hr dt_us sr_hz = Some (s - 4 + z).
Proof.
  intros [Hd Hs]. apply resolve_valid_dt in Hd. apply resolve_valid_sr in Hs.
  unfold hr_decoder_size. rewrite Hd, Hs. cbn [orb].
  destruct (dec_buffer_count dt_us sr_hz) as [n|]; cbn [bind]; [|discriminate].
  destruct (csub n 1) as [m|]; cbn [bind]; [|discriminate].
  intros E. assert (4 + m * 4 = z) as <- by congruence. f_equal. lia.
Qed.

Lemma setup_encoder_eq hr dt_us sr_hz sr_pcm_hz :
  0 < sr_hz ->
  hr_setup_encoder hr dt_us sr_hz sr_pcm_hz =
  hr_setup_encoder hr dt_us sr_hz (eff_pcm sr_hz sr_pcm_hz).
Proof.
  intros H. unfold hr_setup_encoder, eff_pcm.
  destruct (sr_pcm_hz <=? 0) eqn:E; [|rewrite E; reflexivity].
  replace (sr_hz <=? 0) with false by lia. reflexivity.
Qed.
Lemma setup_decoder_eq hr dt_us sr_hz sr_pcm_hz :
  0 < sr_hz ->
  hr_setup_decoder hr dt_us sr_hz sr_pcm_hz =
  hr_setup_decoder hr dt_us sr_hz (eff_pcm sr_hz sr_pcm_hz).
Proof.
  intros H. unfold hr_setup_decoder, eff_pcm.
  destruct (sr_pcm_hz <=? 0) eqn:E; [|rewrite E; reflexivity].
  replace (sr_hz <=? 0) with false by lia. reflexivity.
Qed.

Lemma supported_pos hr dt sr : supported hr dt sr -> 0 < sr.
Proof. intros [_ H]. unfold supported_sr in H. destruct hr; lia. Qed.

Lemma setup_encoder_ok hr dt_us sr_hz sr_pcm_hz :
  let srp := eff_pcm sr_hz sr_pcm_hz in
  supported hr dt_us sr_hz -> supported hr dt_us srp -> sr_hz <= srp ->
  exists c n, hr_setup_encoder hr dt_us sr_hz sr_pcm_hz = Some (Some (c, n)) /\
    (forall s, hr_encoder_size s hr dt_us srp = Some (s - 4 + 4 * n)) /\
    enc_layout_ok c n = true.
Proof.
  intros srp H Hp Hle. rewrite setup_encoder_eq by (eapply supported_pos; eauto).
  fold srp. pose proof enc_check_all as Hall. rewrite forallb_forall in Hall.
  specialize (Hall _ (in_all_setups _ _ _ _ H Hp)). unfold enc_check in Hall.
  replace (sr_hz <=? srp) with true in Hall by lia.
  destruct (hr_setup_encoder hr dt_us sr_hz srp) as [[[c n]|]|]; try discriminate.
  destruct (enc_buffer_count dt_us srp) as [m|]; try discriminate.
  destruct (hr_encoder_size 4 hr dt_us srp) as [sz|] eqn:Esz; try discriminate.
  apply andb_true_iff in Hall. destruct Hall as [Hall Hl].
  exists c, n. split; [reflexivity|]. split; [|exact Hl].
  intros s. rewrite (encoder_size_shift s _ _ _ _ Hp Esz). f_equal. lia.
Qed.

Lemma setup_decoder_ok hr dt_us sr_hz sr_pcm_hz :
  let srp := eff_pcm sr_hz sr_pcm_hz in
  supported hr dt_us sr_hz -> supported hr dt_us srp -> sr_hz <= srp ->
  exists c n, hr_setup_decoder hr dt_us sr_hz sr_pcm_hz = Some (Some (c, n)) /\
    (forall s, hr_decoder_size s hr dt_us srp = Some (s - 4 + 4 * n)) /\
    dec_layout_ok c n = true.
Proof.
  intros srp H Hp Hle. rewrite setup_decoder_eq by (eapply supported_pos; eauto).
  fold srp. pose proof dec_check_all as Hall. rewrite forallb_forall in Hall.
  specialize (Hall _ (in_all_setups _ _ _ _ H Hp)). unfold dec_check in Hall.
  replace (sr_hz <=? srp) with true in Hall by lia.
  destruct (hr_setup_decoder hr dt_us sr_hz srp) as [[[c n]|]|]; try discriminate.
  destruct (dec_buffer_count dt_us srp) as [m|]; try discriminate.
  destruct (hr_decoder_size 4 hr dt_us srp) as [sz|] eqn:Esz; try discriminate.
  apply andb_true_iff in Hall. destruct Hall as [Hall Hl].
  exists c, n. split; [reflexivity|]. split; [|exact Hl].
  intros s. rewrite (decoder_size_shift s _ _ _ _ Hp Esz). f_equal. lia.
Qed.

Lemma setup_encoder_null hr dt_us sr_hz sr_pcm_hz :
  let srp := eff_pcm sr_hz sr_pcm_hz in
  ~ (supported hr dt_us sr_hz /\ supported hr dt_us srp /\ sr_hz <= srp) ->
  hr_setup_encoder hr dt_us sr_hz sr_pcm_hz = Some None.
Proof.
  intros srp H. unfold hr_setup_encoder. cbv zeta. fold (eff_pcm sr_hz sr_pcm_hz).
  fold srp. destruct (_ || _ || _) eqn:E; [reflexivity|].
  exfalso. apply H. apply setup_guard. exact E.
Qed.
Lemma setup_decoder_null hr dt_us sr_hz sr_pcm_hz :
  let srp := eff_pcm sr_hz sr_pcm_hz in
  ~ (supported hr dt_us sr_hz /\ supported hr dt_us srp /\ sr_hz <= srp) ->
  hr_setup_decoder hr dt_us sr_hz sr_pcm_hz = Some None.
Proof.
  intros srp H. unfold hr_setup_decoder. cbv zeta. fold (eff_pcm sr_hz sr_pcm_hz).
  fold srp. destruct (_ || _ || _) eqn:E; [reflexivity|].
  exfalso. apply H. apply setup_guard. exact E.
Qed.

(** The ring: positions are multiples of [ns] in [0, nh]. *)
Definition ring_inv (c0 c : dec_cfg) (i : Z) : Prop :=
  let ns := c_ns (d_dt c) (d_srp c) in
  let nh := c_nh (d_dt c) (d_srp c) in
  d_dt c = d_dt c0 /\ d_sr c = d_sr c0 /\ d_srp c = d_srp c0 /\
  d_xh c = d_xh c0 /\ d_xd c = d_xd c0 /\ d_xg c = d_xg c0 /\
  d_xs c = d_xh c + ns * ((nh / ns + i) mod (nh / ns + 1)).

Lemma complete_ring c0 n c i :
  dec_layout_ok c0 n = true -> 0 <= i ->
  ring_inv c0 c i -> ring_inv c0 (complete c) (i + 1).
Proof.
  unfold dec_layout_ok, ring_inv. cbv zeta.
  intros Hl Hi (E1 & E2 & E3 & E4 & E5 & E6 & E7).
  rewrite !andb_true_iff in Hl.
  unfold complete. cbn [d_dt d_sr d_srp d_xh d_xs d_xd d_xg].
  rewrite E1, E3 in *. rewrite E4 in *.
  set (ns := c_ns (d_dt c0) (d_srp c0)) in *.
  set (nh := c_nh (d_dt c0) (d_srp c0)) in *.
  destruct Hl as [[[[[[[[[[L1 L2] L3] L4] L5] L6] L7] L8] L9] L10] L11].
  assert (Hnh : nh = ns * (nh / ns)) by (apply Z.div_exact; lia).
  assert (Hk : 0 <= nh / ns) by (apply Z.div_pos; lia).
  set (k := nh / ns) in *. clearbody k.
  repeat split; auto.
  rewrite E7.
  replace (d_xh c0 + ns * ((k + i) mod (k + 1)) - d_xh c0)
    with (ns * ((k + i) mod (k + 1))) by lia.
  assert (Hm : 0 <= (k + i) mod (k + 1) < k + 1) by (apply Z.mod_pos_bound; lia).
  assert (Hs : (k + (i + 1)) mod (k + 1) =
     if (k + i) mod (k + 1) =? k then 0 else (k + i) mod (k + 1) + 1).
  { replace (k + (i + 1)) with ((k + i) + 1) by lia.
    rewrite Z.add_mod by lia.
    destruct (Z.eqb_spec ((k + i) mod (k + 1)) k) as [E|E].
    - rewrite E. destruct (Z.eq_dec k 0) as [->|].
      + reflexivity.
      + rewrite (Z.mod_small 1) by lia. apply Z.mod_same. lia.
    - assert (k <> 0) by lia.
      rewrite (Z.mod_small 1) by lia. apply Z.mod_small. lia. }
  rewrite Hs.
  destruct (Z.eqb_spec ((k + i) mod (k + 1)) k) as [E|E].
  - replace (ns * ((k + i) mod (k + 1)) <? nh) with false by nia. lia.
  - replace (ns * ((k + i) mod (k + 1)) <? nh) with true by nia. lia.
Qed.

Definition completes (n : nat) (c : dec_cfg) : dec_cfg := Nat.iter n complete c.

Lemma ring_all c0 n k :
  dec_layout_ok c0 n = true -> ring_inv c0 (completes k c0) (Z.of_nat k).
Proof.
  intros Hl. induction k as [|k IH].
  - cbn. unfold ring_inv. repeat split; auto.
    unfold dec_layout_ok in Hl. cbv zeta in Hl. rewrite !andb_true_iff in Hl.
    set (ns := c_ns (d_dt c0) (d_srp c0)) in *.
    set (nh := c_nh (d_dt c0) (d_srp c0)) in *.
    destruct Hl as [[[[[[[[[[L1 L2] L3] L4] L5] L6] L7] L8] L9] L10] L11].
    assert (Hnh : nh = ns * (nh / ns)) by (apply Z.div_exact; lia).
    assert (Hk : 0 <= nh / ns) by (apply Z.div_pos; lia).
    set (j := nh / ns) in *. clearbody j.
    rewrite Z.add_0_r, Z.mod_small by lia. lia.
  - cbn [completes Nat.iter]. rewrite Nat2Z.inj_succ.
    apply complete_ring with n; auto. lia.
Qed.

(** ** Readable forms used by the property file *)

Lemma enc_regions hr dt_us sr_hz sr_pcm_hz srp :
  srp = (if sr_pcm_hz <=? 0 then sr_hz else sr_pcm_hz) ->
  supported hr dt_us sr_hz -> supported hr dt_us srp -> sr_hz <= srp ->
  exists c count,
    hr_setup_encoder hr dt_us sr_hz sr_pcm_hz = Some (Some (c, count)) /\
    (forall s, hr_encoder_size s hr dt_us srp = Some (s + 4 * (count - 1))) /\
    0 <= 2 * e_xt c - 2 * samples 1250 srp /\
    2 * (e_xt c + samples dt_us srp) <= 4 * e_xs c /\
    4 * (e_xs c + samples dt_us srp) <= 4 * e_xd c /\
    4 * (e_xd c + samples dt_us srp / 2 +
         samples (if dt_us =? 7500 then 2000 else 1250) srp) <= 4 * count.
Proof.
  intros -> H Hp Hle.
  destruct (setup_encoder_ok _ _ _ _ H Hp Hle) as (c & n & E & Es & El).
  exists c, n. split; [exact E|].
  split. { intros s. etransitivity; [apply Es|]. f_equal. lia. }
  revert E El. rewrite setup_encoder_eq by (eapply supported_pos; eauto).
  fold (eff_pcm sr_hz sr_pcm_hz) in *. set (srp := eff_pcm sr_hz sr_pcm_hz) in *.
  clearbody srp. clear Es. intros E El.
  assert (Ed : e_dt c = resolve_dt dt_us hr /\ e_srp c = resolve_srate srp hr).
  { unfold hr_setup_encoder in E. cbv zeta in E.
    assert (0 < srp) by (eapply supported_pos; eauto).
    replace (srp <=? 0) with false in E by lia.
    destruct (_ || _ || _); [discriminate|].
    destruct (enc_buffer_count dt_us srp); [|discriminate].
    cbn [bind] in E. injection E as <- _. split; reflexivity. }
  destruct Ed as [Ed Ep].
  unfold enc_layout_ok in El. rewrite Ed, Ep in El. clear - El Hp.
  rewrite !andb_true_iff in El.
  assert (c_ns (resolve_dt dt_us hr) (resolve_srate srp hr) = samples dt_us srp /\
          c_nt (resolve_srate srp hr) = samples 1250 srp /\
          c_nd (resolve_dt dt_us hr) (resolve_srate srp hr) =
            samples dt_us srp / 2 + samples (if dt_us =? 7500 then 2000 else 1250) srp)
    as (E1 & E2 & E3) by (supported_case Hp; repeat split; reflexivity).
  rewrite E1, E2, E3 in El. lia.
Qed.

Lemma dec_regions hr dt_us sr_hz sr_pcm_hz srp :
  srp = (if sr_pcm_hz <=? 0 then sr_hz else sr_pcm_hz) ->
  supported hr dt_us sr_hz -> supported hr dt_us srp -> sr_hz <= srp ->
  exists c count,
    hr_setup_decoder hr dt_us sr_hz sr_pcm_hz = Some (Some (c, count)) /\
    (forall s, hr_decoder_size s hr dt_us srp = Some (s + 4 * (count - 1))) /\
    exists cycle, 1 <= cycle /\
    (srp <= 48000 -> samples 18000 srp < cycle * samples dt_us srp) /\
    forall k : nat,
      let ck := Nat.iter k complete c in
      let ns := samples dt_us srp in
      d_dt ck = d_dt c /\ d_sr ck = d_sr c /\ d_srp ck = d_srp c /\
      d_xs ck = ns * ((cycle - 1 + Z.of_nat k) mod cycle) /\
      0 <= d_xh ck /\ d_xh ck <= d_xs ck /\
      d_xs ck + ns <= d_xh ck + cycle * ns /\
      d_xh ck + cycle * ns <= d_xd ck /\
      d_xd ck + samples dt_us srp / 2 +
         samples (if dt_us =? 7500 then 2000 else 1250) srp <= d_xg ck /\
      d_xg ck + ns <= count.
Proof.
  intros -> H Hp Hle.
  destruct (setup_decoder_ok _ _ _ _ H Hp Hle) as (c & n & E & Es & El).
  exists c, n. split; [exact E|].
  split. { intros s. etransitivity; [apply Es|]. f_equal. lia. }
  revert E El. rewrite setup_decoder_eq by (eapply supported_pos; eauto).
  fold (eff_pcm sr_hz sr_pcm_hz) in *. set (srp := eff_pcm sr_hz sr_pcm_hz) in *.
  clearbody srp. clear Es. intros E El.
  assert (Ed : d_dt c = resolve_dt dt_us hr /\ d_srp c = resolve_srate srp hr).
  { unfold hr_setup_decoder in E. cbv zeta in E.
    assert (0 < srp) by (eapply supported_pos; eauto).
    replace (srp <=? 0) with false in E by lia.
    destruct (_ || _ || _); [discriminate|].
    destruct (dec_buffer_count dt_us srp); [|discriminate].
    cbn [bind] in E. injection E as <- _. split; reflexivity. }
  destruct Ed as [Ed Ep]. clear E.
  set (nh := c_nh (d_dt c) (d_srp c)).
  set (ns := c_ns (d_dt c) (d_srp c)).
  assert (c_ns (d_dt c) (d_srp c) = samples dt_us srp /\
          (srp <= 48000 -> samples 18000 srp < (nh / ns + 1) * samples dt_us srp) /\
          c_nd (d_dt c) (d_srp c) =
            samples dt_us srp / 2 + samples (if dt_us =? 7500 then 2000 else 1250) srp)
    as (E1 & E2 & E3).
  { unfold nh, ns. rewrite Ed, Ep. clear - Hp.
    supported_case Hp; repeat split; try reflexivity; cbv; congruence. }
  exists (nh / ns + 1).
  pose proof El as El'. unfold dec_layout_ok in El'. cbv zeta in El'.
  fold ns nh in El'. rewrite !andb_true_iff in El'.
  destruct El' as [[[[[[[[[[L1 L2] L3] L4] L5] L6] L7] L8] L9] _] _].
  fold ns in E1.
  assert (Hnh : nh = ns * (nh / ns)) by (apply Z.div_exact; lia).
  assert (Hk : 0 <= nh / ns) by (apply Z.div_pos; lia).
  split; [lia|]. split; [exact E2|].
  intros k. cbv zeta.
  pose proof (ring_all c n k El) as R. unfold ring_inv, completes in R.
  set (ck := Nat.iter k complete c) in *. clearbody ck. cbv zeta in R.
  destruct R as (R1 & R2 & R3 & R4 & R5 & R6 & R7).
  rewrite R1, R3 in R7. fold ns nh in R7.
  set (q := nh / ns) in *. clearbody q. rewrite <- E1.
  pose proof (Z.mod_pos_bound (q + Z.of_nat k) (q + 1) ltac:(lia)) as Hm.
  replace (q + 1 - 1 + Z.of_nat k) with (q + Z.of_nat k) by lia.
  set (m := (q + Z.of_nat k) mod (q + 1)) in *. clearbody m.
  rewrite R4, R5, R6.
  assert (ns * m <= ns * q) by nia.
  clear E2. repeat split; try assumption; try nia; try lia.
Qed.

Lemma setup_null hr dt_us sr_hz sr_pcm_hz srp :
  srp = (if sr_pcm_hz <=? 0 then sr_hz else sr_pcm_hz) ->
  ~ (supported hr dt_us sr_hz /\ supported hr dt_us srp /\ sr_hz <= srp) ->
  hr_setup_encoder hr dt_us sr_hz sr_pcm_hz = Some None /\
  hr_setup_decoder hr dt_us sr_hz sr_pcm_hz = Some None.
Proof.
  intros -> H. split.
  - apply setup_encoder_null. exact H.
  - apply setup_decoder_null. exact H.
Qed.

Lemma supported_dec hr dt_us sr_hz :
  {supported hr dt_us sr_hz} + {~ supported hr dt_us sr_hz}.
Proof.
  destruct ((NUM_DT <=? resolve_dt dt_us hr) || (NUM_SRATE <=? resolve_srate sr_hz hr))
    eqn:E.
  - right. intros [Hd Hs]. apply resolve_valid_dt in Hd. apply resolve_valid_sr in Hs.
    rewrite Hd, Hs in E. discriminate.
  - left. apply orb_false_iff in E. destruct E as [E1 E2].
    split; [apply resolve_valid_dt|apply resolve_valid_sr]; assumption.
Qed.

Lemma resolve_bitrate_total hr dt_us sr_hz nbytes :
  INT_MIN <= nbytes <= INT_MAX ->
  exists b, hr_resolve_bitrate hr dt_us sr_hz nbytes = Some b /\
    (supported hr dt_us sr_hz /\ 0 <= nbytes ->
       b = Z.min ((nbytes * 3200 + (dt_us / 2500 - 1)) / (dt_us / 2500)) INT_MAX) /\
    (~ supported hr dt_us sr_hz \/ nbytes < 0 -> b = -1).
Proof.
  intros Hn. destruct (supported_dec hr dt_us sr_hz) as [H|H].
  - destruct (Z_lt_le_dec nbytes 0) as [Hl|Hl].
    + exists (-1). split; [apply resolve_bitrate_err; auto|].
      split; [intros [_ ?]; exfalso; apply (Zlt_not_le _ _ Hl); assumption|auto].
    + eexists. split; [apply resolve_bitrate_ok; auto; tauto|].
      split; [auto|]. intros [?|?]; [tauto|].
      exfalso; apply (Zle_not_lt _ _ Hl); assumption.
  - exists (-1). split; [apply resolve_bitrate_err; auto|].
    split; [tauto|auto].
Qed.

Lemma block_bytes_max_refuted :
  exists nch, 1 <= nch <= 8 /\ supported false 2500 48000 /\
    hr_frame_block_bytes false 2500 48000 nch INT_MAX = Some 1680 /\
    1680 < nch * max_size false 2500 48000.
Proof.
  exists 5. split; [lia|]. split.
  - unfold supported, supported_dt, supported_sr. tauto.
  - split; [vm_compute; reflexivity|]. cbn. lia.
Qed.
