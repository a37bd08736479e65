(** * The pitch analysis works on a seamless stream at 12.8 kHz *)
From Coq Require Import ZArith List Bool Lia.
From Verif Require Import Base BaseProofs ConfigModel ConfigSpec ConfigProofs SideModel LtpfTables LtpfModel LtpfSpec LtpfProofs
  FrontModel FrontSpec FrontHp50 FrontProofs FrontPitch FrontAttack FrontRun.
Import ListNotations.
Local Open Scope Z_scope.

Lemma sum_ext f g n : forall k, (forall j, k <= j < k + Z.of_nat n -> f j = g j) -> sum n f k = sum n g k.
Proof. induction n as [|n IH]; intros k H; cbn [sum]; [reflexivity|]. rewrite (H k), (IH (k + 1)) by (intros; try apply H; lia). reflexivity. Qed.

Lemma conv_sum x X h o n : forall px ph t0, 0 <= px -> px + Z.of_nat n <= zlen x -> 0 <= ph ->
  (forall i, 0 <= i < zlen x -> znth x i 0 = X (o + i)) ->
  conv n x px h ph = sum n (fun t => X (o + px - t0 + t) * nth (Z.to_nat (ph - t0 + t)) h 0) t0.
Proof.
  induction n as [|n IH]; intros px ph t0 H1 H2 H3 HX; cbn [conv sum]; [reflexivity|].
  rewrite (IH (px + 1) (ph + 1) (t0 + 1)) by (assumption || lia). f_equal.
  - rewrite HX by lia. unfold znth. destruct (Z.ltb_spec ph 0); [lia|]. f_equal; f_equal; [lia|f_equal; lia].
  - apply sum_ext. intros j Hj. f_equal; f_equal; [lia|f_equal; lia].
Qed.

Lemma hp_memory_S u n : hp_memory u (S n) =
  let '(s1, s2) := hp_memory u n in let x := u (Z.of_nat n) in let y := (s1 + x * hp_b2) / 2 ^ 30 in
  (s2 + x * hp_b1 - y * hp_a1, x * hp_b2 - y * hp_a2).
Proof.
  cbn [hp_memory]. destruct (hp_memory u n) as [s1 s2]. cbv zeta. unfold hp_b1, hp_b2, hp_a1, hp_a2. f_equal. lia.
Qed.

Lemma wrm_in {A} (l : list A) i v : 0 <= i < zlen l -> wrm l i v = ret (upd l i v).
Proof. intros H. unfold wrm. rewrite wr_in by exact H. reflexivity. Qed.

Section frame.
  Context (sr dt p step w : Z) (h : list Z) (S : Z) (R : resampler_ok sr p step w h S) (Hdt : 0 <= dt < 4)
    (HU : amp_limit sr * S <= hp_U) (X : stream) (HA : forall t, Z.abs (X t) <= amp_limit sr).
  Notation u := (interpolated p step w h X).
  Let ns := c_ns dt sr.
  Let n12 := (1 + dt) * 32.

  Lemma u_bound k : Z.abs (u k) <= hp_U.
  Proof.
    unfold interpolated. pose proof (ro_p _ _ _ _ _ _ R) as Hp. pose proof (ro_w _ _ _ _ _ _ R) as Hw.
    pose proof (Z.mod_pos_bound (step * k) p Hp) as Hm. pose proof (ro_S _ _ _ _ _ _ R _ Hm) as HS.
    eapply Z.le_trans; [|exact HU]. assert (HA0 : 0 <= amp_limit sr) by (unfold amp_limit; destruct (sr =? 0); lia).
    eapply Z.le_trans; [|apply Z.mul_le_mono_nonneg_l; [exact HA0|exact HS]]. clear HS.
    assert (H0 : 0 <= step * k mod p * w) by (apply Z.mul_nonneg_nonneg; lia). revert H0.
    generalize (step * k / p - (w - 1)) (step * k mod p * w). intros a b Hb. clear Hm.
    assert (E : forall n t0, 0 <= t0 -> Z.abs (sum n (fun t => X (a + t) * nth (Z.to_nat (b + t)) h 0) t0) <= amp_limit sr * asum n h (b + t0)).
    { induction n as [|n IH]; intros t0 Ht; cbn [sum asum]; [lia|]. eapply Z.le_trans; [apply Z.abs_triangle|].
      rewrite Z.mul_add_distr_l. apply Z.add_le_mono.
      - rewrite Z.abs_mul. unfold znth. destruct (Z.ltb_spec (b + t0) 0); [lia|]. apply Z.mul_le_mono_nonneg_r; [lia|apply HA].
      - rewrite <- Z.add_assoc. apply IH. lia. }
    specialize (E (Z.to_nat w) 0 ltac:(lia)). rewrite Z.add_0_r in E. exact E.
  Qed.

  Lemma memory_inv n : hp_inv (hp_memory u n).
  Proof.
    induction n as [|n IH]; [apply hp_inv_init|]. rewrite hp_memory_S. destruct (hp_memory u n) as [s1 s2]. cbv zeta.
    apply (hp50_exact s1 s2 (u (Z.of_nat n)) IH (u_bound _)).
  Qed.

  Lemma step_exact k : 0 <= k ->
    filter_hp50 (hp_memory u (Z.to_nat k)) (u k) = ret (hp_output u k, hp_memory u (Z.to_nat (k + 1))) /\ Z.abs (hp_output u k) <= hp_Y.
  Proof.
    intros Hk. rewrite Z2Nat.inj_add by lia. change (Z.to_nat 1) with 1%nat. rewrite Nat.add_1_r, hp_memory_S, Z2Nat.id by lia.
    unfold hp_output. pose proof (memory_inv (Z.to_nat k)) as Hi. destruct (hp_memory u (Z.to_nat k)) as [s1 s2].
    destruct (hp50_exact s1 s2 (u k) Hi (u_bound k)) as (E & H & _). split; [exact E|exact H].
  Qed.

  Lemma at_12k8_bound k : s16 (at_12k8 u k) /\ amp y_limit (at_12k8 u k).
  Proof.
    unfold at_12k8. destruct (Z.ltb_spec k 0); [unfold s16, amp, y_limit; lia|].
    destruct (step_exact k H) as [_ B]. revert B. unfold hp_Y, s16, amp, y_limit. generalize (hp_output u k). clear. intros. Z.div_mod_to_equations. lia.
  Qed.

  (** Frame [N] of the stream in [x]. *)
  Lemma resample_exact x nt N : 0 <= N -> w <= nt + 1 -> Forall s16 x -> zlen x = nt + ns ->
    (forall i, 0 <= i < zlen x -> znth x i 0 = X (ns * N - nt + i)) ->
    forall n y py j, 0 <= j -> j + Z.of_nat n <= n12 -> 0 <= py -> py + Z.of_nat n <= zlen y ->
    exists y', resample n p step w h (hp_memory u (Z.to_nat (n12 * N + j))) x (nt - (w - 1)) y py (step * j) =
      ret (y', hp_memory u (Z.to_nat (n12 * N + j + Z.of_nat n))) /\
      zlen y' = zlen y /\
      forall i, znth y' i 0 = if (py <=? i) && (i <? py + Z.of_nat n) then at_12k8 u (n12 * N + j + (i - py)) else znth y i 0.
  Proof.
    intros HN Hw1 Hx Hl HX. pose proof (ro_p _ _ _ _ _ _ R) as Hp. pose proof (ro_w _ _ _ _ _ _ R) as Hw. pose proof (ro_step _ _ _ _ _ _ R) as Hst.
    pose proof (ro_ns _ _ _ _ _ _ R dt Hdt) as Hns. fold n12 ns in Hns. destruct (ro_U _ _ _ _ _ _ R) as [HS0 HS1].
    induction n as [|n IH]; intros y py j Hj1 Hj2 Hy1 Hy2; cbn [resample].
    { exists y. change (Z.of_nat 0) with 0. rewrite Z.add_0_r. split; [reflexivity|]. split; [reflexivity|]. intros i.
      destruct (Z.leb_spec py i), (Z.ltb_spec i (py + 0)); cbn [andb]; try reflexivity; lia. }
    assert (Hn12 : 0 <= n12 * N) by (apply Z.mul_nonneg_nonneg; unfold n12; lia).
    set (K := n12 * N + j). assert (HK : 0 <= K) by (unfold K; lia).
    assert (Ed : step * K / p = ns * N + step * j / p).
    { unfold K. rewrite Z.mul_add_distr_l, Z.mul_assoc, Hns. replace (p * ns * N + step * j) with (step * j + ns * N * p) by ring.
      rewrite Z.div_add by lia. lia. }
    assert (Em : step * K mod p = step * j mod p).
    { unfold K. rewrite Z.mul_add_distr_l, Z.mul_assoc, Hns. replace (p * ns * N + step * j) with (step * j + ns * N * p) by ring.
      apply Z.mod_add. lia. }
    assert (Hi : 0 <= step * j / p < ns).
    { split; [apply Z.div_pos; nia|]. apply Z.div_lt_upper_bound; [lia|]. rewrite <- Hns. nia. }
    pose proof (Z.mod_pos_bound (step * j) p Hp) as Hmod. pose proof (ro_S _ _ _ _ _ _ R _ Hmod) as HS.
    assert (Hph : 0 <= step * j mod p * w /\ step * j mod p * w + w <= zlen h).
    { rewrite (ro_h _ _ _ _ _ _ R). revert Hmod Hw. generalize (step * j mod p). clear. intros. nia. }
    assert (E : fir (Z.to_nat w) x (nt - (w - 1) + step * j / p) h (step * j mod p * w) 0 = ret (u K)).
    { rewrite fir_ok by (try apply (ro_s16 _ _ _ _ _ _ R); try assumption; rewrite ?Z2Nat.id by lia; lia). f_equal.
      rewrite Z.add_0_l, (conv_sum x X h (ns * N - nt) _ _ _ 0) by (try assumption; rewrite ?Z2Nat.id by lia; lia).
      unfold interpolated. rewrite Ed, Em. apply sum_ext. intros t _. f_equal; f_equal; [lia|f_equal; lia]. }
    rewrite E, bind_ret. destruct (step_exact K HK) as [E1 B1]. rewrite E1, bind_ret. cbn [fst snd].
    rewrite m32_in by (revert B1; unfold hp_Y; clear; lia). rewrite bind_ret.
    assert (Ev : shr (hp_output u K + 32768) 16 = at_12k8 u K) by (unfold at_12k8, shr; destruct (Z.ltb_spec K 0); [lia|reflexivity]).
    rewrite Ev, m16_in by (apply at_12k8_bound). rewrite bind_ret, wrm_in, bind_ret by lia.
    replace (step * j + step) with (step * (j + 1)) by lia.
    replace (K + 1) with (n12 * N + (j + 1)) by (unfold K; lia).
    destruct (IH (upd y py (at_12k8 u K)) (py + 1) (j + 1)) as (y' & E2 & L2 & V2); try (rewrite ?zlen_upd; lia).
    exists y'. rewrite E2. split; [f_equal; f_equal; f_equal; unfold K; lia|]. split; [rewrite L2, zlen_upd; reflexivity|].
    intros i. rewrite V2. destruct (Z.eq_dec i py) as [->|Hne].
    - replace ((py + 1 <=? py) && (py <? py + 1 + Z.of_nat n)) with false by lia.
      replace ((py <=? py) && (py <? py + Z.of_nat (Datatypes.S n))) with true by lia.
      rewrite znth_upd_same by lia. f_equal. unfold K. lia.
    - replace ((py <=? i) && (i <? py + Z.of_nat (Datatypes.S n))) with ((py + 1 <=? i) && (i <? py + 1 + Z.of_nat n)) by lia.
      destruct ((py + 1 <=? i) && (i <? py + 1 + Z.of_nat n)); [f_equal; unfold K; lia|].
      destruct (Z.lt_ge_cases i 0); [unfold znth; destruct (Z.ltb_spec i 0); [reflexivity|lia]|]. apply znth_upd_other; lia.
  Qed.

End frame.

(** [x] holds the stream [Y] at 12.8 kHz from the time [o]. *)
Lemma resample_6k4_exact x Y o D : (forall k, s16 (Y k)) -> (forall i, 0 <= i < zlen x -> znth x i 0 = Y (o + i)) ->
  forall n px y py K, 2 <= px -> px + 2 * Z.of_nat n < zlen x + 1 -> 0 <= py -> py + Z.of_nat n <= zlen y -> o + px = 2 * K - D ->
  (n <> O -> px + 2 * Z.of_nat n < zlen x) ->
  exists y', resample_6k4 n x px y py = ret y' /\ zlen y' = zlen y /\
    forall i, znth y' i 0 = if (py <=? i) && (i <? py + Z.of_nat n) then at_6k4 D Y (K + (i - py)) else znth y i 0.
Proof.
  intros HY HX. induction n as [|n IH]; intros px y py K H1 H2 H3 H4 E Hn; cbn [resample_6k4].
  { exists y. split; [reflexivity|]. split; [reflexivity|]. intros i. change (Z.of_nat 0) with 0.
    destruct (Z.leb_spec py i), (Z.ltb_spec i (py + 0)); cbn [andb]; try reflexivity; lia. }
  specialize (Hn ltac:(discriminate)).
  rewrite (rdm_znth x px), bind_ret, (rdm_znth x (px - 1)), bind_ret, (rdm_znth x (px + 1)), bind_ret,
    (rdm_znth x (px - 2)), bind_ret, (rdm_znth x (px + 2)), bind_ret by lia.
  rewrite !HX by lia.
  pose proof (HY (o + px)) as B0. pose proof (HY (o + (px - 1))) as B1. pose proof (HY (o + (px + 1))) as B2.
  pose proof (HY (o + (px - 2))) as B3. pose proof (HY (o + (px + 2))) as B4.
  rewrite m32_in by (revert B0 B1 B2; unfold s16; clear; lia). rewrite bind_ret.
  rewrite m32_in by (revert B0 B1 B2 B3 B4; unfold s16; clear; lia). rewrite bind_ret.
  assert (Ev : shr (Y (o + px) * 18477 + (Y (o + (px - 1)) + Y (o + (px + 1))) * 15424 + (Y (o + (px - 2)) + Y (o + (px + 2))) * 8105) 16 = at_6k4 D Y K).
  { unfold at_6k4, shr. cbv zeta. rewrite <- E. replace (o + px - 1) with (o + (px - 1)) by lia. replace (o + px + 1) with (o + (px + 1)) by lia.
    replace (o + px - 2) with (o + (px - 2)) by lia. replace (o + px + 2) with (o + (px + 2)) by lia. f_equal. lia. }
  assert (Bv : s16 (at_6k4 D Y K)).
  { rewrite <- Ev. revert B0 B1 B2 B3 B4. unfold s16, shr. clear. intros. Z.div_mod_to_equations. lia. }
  rewrite Ev, m16_in by exact Bv. rewrite bind_ret, wrm_in, bind_ret by lia.
  destruct (IH (px + 2) (upd y py (at_6k4 D Y K)) (py + 1) (K + 1)) as (y' & E2 & L2 & V2); try (rewrite ?zlen_upd; lia).
  exists y'. rewrite E2. split; [reflexivity|]. split; [rewrite L2, zlen_upd; reflexivity|].
  intros i. rewrite V2. destruct (Z.eq_dec i py) as [->|Hne].
  - replace ((py + 1 <=? py) && (py <? py + 1 + Z.of_nat n)) with false by lia.
    replace ((py <=? py) && (py <? py + Z.of_nat (Datatypes.S n))) with true by lia.
    rewrite znth_upd_same by lia. f_equal. lia.
  - replace ((py <=? i) && (i <? py + Z.of_nat (Datatypes.S n))) with ((py + 1 <=? i) && (i <? py + 1 + Z.of_nat n)) by lia.
    destruct ((py + 1 <=? i) && (i <? py + 1 + Z.of_nat n)); [f_equal; lia|].
    destruct (Z.lt_ge_cases i 0); [unfold znth; destruct (Z.ltb_spec i 0); [reflexivity|lia]|]. apply znth_upd_other; lia.
Qed.


Lemma shift_down_exact l n : 0 <= n <= zlen l ->
  exists l', shift_down l n = ret l' /\ zlen l' = zlen l /\ forall i, 0 <= i < zlen l - n -> znth l' i 0 = znth l (n + i) 0.
Proof.
  intros Hn. unfold shift_down. unfold assertm. replace ((0 <=? n) && (n <=? zlen l)) with true by lia. rewrite bind_ret.
  eexists. split; [reflexivity|]. assert (L : zlen (skipn (Z.to_nat n) l) = zlen l - n) by (apply zlen_skipn; lia).
  split; [rewrite zlen_app, L, zlen_skipn by lia; lia|]. intros i Hi. rewrite znth_app_l by lia. apply znth_skipn; lia.
Qed.

(** [l] holds the [len] samples of the stream [Y] before the time [t]. *)
Definition last_of (len : Z) (Y : stream) (t : Z) (l : list Z) : Prop :=
  zlen l = len /\ forall i, 0 <= i < len -> znth l i 0 = Y (t - len + i).

(** Delay of the stream at 6.4 kHz. *)
Definition delay_6k4 (dt : Z) : Z := if dt =? 2 then 45 else 25.

Section floats.
  Context {F : Type} (zero : F) (add sub mul div : F -> F -> F) (sqrt : F -> F) (lt le : F -> F -> bool)
    (ofz lit : Z -> F).

  (** The memories after [N] frames. *)
  Definition streams_ok (dt p step w : Z) (h : list Z) (X : stream) (N : Z) (st : @analysis F) : Prop :=
    let u := interpolated p step w h X in
    n_hp st = hp_memory u (Z.to_nat ((1 + dt) * 32 * N)) /\
    last_of 384 (at_12k8 u) ((1 + dt) * 32 * N) (n_x12k8 st) /\
    last_of 178 (at_6k4 (delay_6k4 dt) (at_12k8 u)) ((1 + dt) * 16 * N) (n_x6k4 st).

  Lemma analyse_exact dt sr p step w h S X N st x d0 r o :
    0 <= dt < 4 -> 0 <= N -> resampler sr = ret (p, step, w, h) -> resampler_ok sr p step w h S -> amp_limit sr * S <= hp_U ->
    (forall t, Z.abs (X t) <= amp_limit sr) -> (forall t, s16 (X t)) ->
    Forall s16 x -> zlen x = c_nt sr + c_ns dt sr ->
    (forall i, 0 <= i < zlen x -> znth x i 0 = X (c_ns dt sr * N - c_nt sr + i)) ->
    streams_ok dt p step w h X N st ->
    ltpf_analyse zero add sub mul div sqrt lt le ofz lit dt sr st x (c_nt sr) d0 = Some (r, o) ->
    streams_ok dt p step w h X (N + 1) (snd (fst r)).
  Proof.
    intros Hdt HN Er R HU HA H16 Hx Hl HX (S1 & [S2 S3] & [S4 S5]). unfold ltpf_analyse. cbv zeta.
    set (n12 := (1 + dt) * 32).
    destruct (shift_down_exact (n_x12k8 st) n12) as (x12 & E1 & L1 & V1); [unfold n12; lia|]. rewrite E1, bind_ret.
    unfold resample_12k8. rewrite Er, bind_ret.
    pose proof (resample_exact sr dt p step w h S R Hdt HU X HA x (c_nt sr) N HN (ro_nt _ _ _ _ _ _ R) Hx Hl HX
      (Z.to_nat n12) x12 (384 - n12) 0) as RE.
    rewrite Z2Nat.id in RE by (unfold n12; lia). fold n12 in RE.
    destruct RE as (y12 & E2 & L2 & V2); [unfold n12; lia..|].
    rewrite Z.mul_0_r, Z.add_0_r in E2. rewrite S1. fold n12. rewrite E2, bind_ret. clear E2.
    set (u := interpolated p step w h X) in *.
    assert (H12 : last_of 384 (at_12k8 u) (n12 * (N + 1)) y12).
    { split; [lia|]. intros i Hi. rewrite V2. destruct (Z.leb_spec (384 - n12) i), (Z.ltb_spec i (384 - n12 + n12)); cbn [andb]; try lia.
      - f_equal. lia.
      - rewrite V1 by lia. rewrite S3 by (unfold n12 in *; lia). f_equal. fold n12. lia. }
    assert (Hn6 : shr n12 1 = (1 + dt) * 16) by (unfold n12, shr; change (2 ^ 1) with 2; rewrite <- (Z.div_mul ((1 + dt) * 16) 2) by lia; f_equal; lia).
    rewrite Hn6.
    destruct (shift_down_exact (n_x6k4 st) ((1 + dt) * 16)) as (x6 & E3 & L3 & V3); [lia|]. rewrite E3, bind_ret.
    destruct H12 as [L12 V12].
    set (pp := if dt =? DT_7M5 then 44 else 24).
    assert (Hpp : pp = delay_6k4 dt - 1 /\ 24 <= pp <= 44) by (unfold pp, delay_6k4, DT_7M5; destruct (dt =? 2); lia).
    assert (HB : forall k, s16 (at_12k8 u k) /\ amp y_limit (at_12k8 u k)) by (intros k; eapply at_12k8_bound; eassumption).
    pose proof (resample_6k4_exact y12 (at_12k8 u) (n12 * (N + 1) - 384) (delay_6k4 dt)) as R6.
    destruct (R6 (fun k => proj1 (HB k)) ltac:(rewrite L12; exact V12)
      (Z.to_nat ((1 + dt) * 16)) (384 - n12 - pp - 1) x6 (178 - (1 + dt) * 16) ((1 + dt) * 16 * N)) as (y6 & E4 & L4 & V4);
      try (rewrite ?Z2Nat.id by lia; unfold n12 in *; lia).
    rewrite E4, bind_ret. clear R6 E4. rewrite Z2Nat.id in V4 by lia.
    assert (H6 : last_of 178 (at_6k4 (delay_6k4 dt) (at_12k8 u)) ((1 + dt) * 16 * (N + 1)) y6).
    { split; [lia|]. intros i Hi. rewrite V4. destruct (Z.leb_spec (178 - (1 + dt) * 16) i), (Z.ltb_spec i (178 - (1 + dt) * 16 + (1 + dt) * 16)); cbn [andb]; try lia.
      - f_equal. lia.
      - rewrite V3 by lia. rewrite S5 by lia. f_equal. lia. }
    destruct (if dt =? DT_2M5 then _ else _) as [[[q12 q6] m12] m6].
    destruct (detect_pitch _ _ _ _ _ _ _ _ _ _ _ _ _) as [[[[present tc] tc'] o1]|]; [|discriminate]. cbn [bindm].
    intros Hr.
    match type of Hr with match ?e with _ => _ end = _ => destruct e as [[[[b ana] dd] oo]|] eqn:Em end; [|discriminate].
    injection Hr as <- <-. cbn [fst snd].
    destruct (if present then _ else _) as [[[[pitch idx] nc] o2]|]; [|discriminate]. cbn [bindm ret] in Em. injection Em as <- <- <- <-.
    split; [cbn [n_hp]; f_equal; f_equal; unfold n12; lia|]. cbn [n_x12k8 n_x6k4]. split; [split; assumption|exact H6].
  Qed.
End floats.

Section run.
  Context {F : Type} (zero : F) (add sub mul div : F -> F -> F) (sqrt : F -> F) (lt le : F -> F -> bool)
    (ofz lit : Z -> F).
  Notation front_run := (front_run zero add sub mul div sqrt lt le ofz lit).

  Lemma run_streams dt sr p step w h S X :
    0 <= dt < 4 -> 0 <= c_nt sr <= c_ns dt sr ->
    resampler sr = ret (p, step, w, h) -> resampler_ok sr p step w h S -> amp_limit sr * S <= hp_U ->
    (forall t, Z.abs (X t) <= amp_limit sr) -> (forall t, s16 (X t)) ->
    forall ks N st r o, 0 <= N ->
    calls_at (c_ns dt sr) X N ks -> xt_ok (c_nt sr) (c_ns dt sr) X N (f_xt st) ->
    streams_ok dt p step w h X N (f_ltpf st) ->
    front_run dt sr false st ks = Some (r, o) ->
    streams_ok dt p step w h X (N + zlen ks) (f_ltpf (snd r)).
  Proof.
    intros Hdt Hnt Er R HU HA H16. induction ks as [|[k d0] ks IH]; intros N st r o HN Hk Hxt Hs; cbn [FrontModel.front_run].
    { intros E. injection E as <- <-. cbn [snd]. rewrite zlen_nil, Z.add_0_r. exact Hs. }
    cbn [calls_at] in Hk. destruct Hk as (K1 & K2 & K3 & K4).
    destruct (xt_load _ _ X N (f_xt st) (k_pcm k) Hnt Hxt K1 K2 K3) as (L1 & L2 & L3).
    pose proof (xt_save _ _ X N _ Hnt L1 L2 L3) as Hxt'.
    intros E. unfold bindm at 1 in E.
    destruct (front_frame _ _ _ _ _ _ _ _ _ _ dt sr false st k d0) as [[[[[att pp] d] st1] o1]|] eqn:Ef; [|discriminate].
    assert (H1 : streams_ok dt p step w h X (N + 1) (f_ltpf st1) /\ xt_ok (c_nt sr) (c_ns dt sr) X (N + 1) (f_xt st1)).
    { unfold front_frame in Ef. unfold assertm in Ef.
      destruct ((zlen (k_pcm k) =? c_ns dt sr) && (zlen (f_xt st) =? c_nt sr + c_ns dt sr)); [|discriminate]. rewrite bind_ret in Ef.
      set (xt := firstn (Z.to_nat (c_nt sr)) (f_xt st) ++ k_pcm k) in *.
      destruct (attdet_run dt sr (k_nbytes k) (f_att st) xt (c_nt sr)) as [[at_ o2]|]; [|discriminate]. cbn [bindm] in Ef.
      destruct (ltpf_analyse _ _ _ _ _ _ _ _ _ _ dt sr (f_ltpf st) xt (c_nt sr) d0) as [[[[pp' ana] d'] o3]|] eqn:Ea; [|discriminate].
      cbn [bindm ret] in Ef. injection Ef as <- <- <- <- <-. cbn [f_ltpf f_xt]. split; [|exact Hxt'].
      pose proof (analyse_exact zero add sub mul div sqrt lt le ofz lit dt sr p step w h S X N (f_ltpf st) xt d0 (pp', ana, d') o3 Hdt HN Er R HU HA H16 L2 L1) as AE.
      rewrite L1 in AE. specialize (AE L3 Hs Ea). exact AE. }
    destruct H1 as [H1 H2].
    destruct (front_run dt sr false st1 ks) as [[r2 o2]|] eqn:Er2; [|discriminate]. cbn [bindm ret] in E. injection E as <- <-.
    cbn [snd]. rewrite zlen_cons, Z.add_assoc. apply (IH (N + 1) st1 r2 o2); try assumption. lia.
  Qed.
End run.
