(** * Properties of the PCM input and output (C31) *)
From Coq Require Import ZArith List Bool Lia ZifyBool.
From Verif Require Import Base BaseProofs FloatModel FloatProofs PcmModel PcmSpec PcmProofs.
Import ListNotations.
Local Open Scope Z_scope.

(** 16 bits: loaded exactly, stored back unchanged. *)
Theorem C31_s16_round_trip v : is_s16 v ->
  load_s16 v = (v, Some (Fin (v * one))) /\ store_s16 (v * one) = Some v.
Proof. intros H. split; [apply load_s16_eq|apply store_s16_eq]; exact H. Qed.
Print Assumptions C31_s16_round_trip.

(** 24 bits: the 8 lower bits are the fraction; the pitch analysis has the upper 16. *)
Theorem C31_s24_round_trip v : is_s24 v ->
  exists x, load_s24 v = (v / 256, Some (Fin x)) /\ x * 256 = v * one /\ store_s24 x = Some v.
Proof.
  intros H. exists (v * 2 ^ 141). split; [apply load_s24_eq; exact H|]. split.
  - change one with (2 ^ 141 * 256). ring.
  - apply store_s24_eq. exact H.
Qed.
Print Assumptions C31_s24_round_trip.

(** 24 bits packed: same samples as 24 bits. *)
Theorem C31_s24_3le_load b0 b1 b2 : bytes [b0; b1; b2] ->
  is_s24 (le24_value b0 b1 b2) /\ load_s24_3le b0 b1 b2 = load_s24 (le24_value b0 b1 b2).
Proof. intros H. split; [apply (le24_range _ _ _ H)|apply (load_s24_3le_eq _ _ _ H)]. Qed.
Print Assumptions C31_s24_3le_load.

Theorem C31_s24_3le_store x s : store_s24 x = Some s -> is_s24 s ->
  exists b0 b1 b2, store_s24_3le x = Some [b0; b1; b2] /\ bytes [b0; b1; b2] /\ le24_value b0 b1 b2 = s.
Proof.
  intros E Hs. destruct (bytes_le24 s Hs) as (b0 & b1 & b2 & E1 & Hb & E2).
  exists b0, b1, b2. unfold store_s24_3le. rewrite E. cbn [option_map]. rewrite E1. auto.
Qed.
Print Assumptions C31_s24_3le_store.

Theorem C31_s24_3le_round_trip b0 b1 b2 : bytes [b0; b1; b2] ->
  exists t x, load_s24_3le b0 b1 b2 = (t, Some (Fin x)) /\ store_s24_3le x = Some [b0; b1; b2].
Proof.
  intros H. rewrite (load_s24_3le_eq _ _ _ H), load_s24_eq by (apply (le24_range _ _ _ H)).
  do 2 eexists. split; [reflexivity|]. unfold store_s24_3le.
  rewrite store_s24_eq by (apply (le24_range _ _ _ H)). cbn [option_map]. f_equal. apply (le24_bytes _ _ _ H).
Qed.
Print Assumptions C31_s24_3le_round_trip.

(** Float: stored back unchanged in [-1, 1]; the sample of the pitch analysis is
    truncated and saturated. *)
Theorem C31_float_round_trip x : normal_f32 one x ->
  exists t y, load_float x = Some (t, Fin y) /\ is_s16 t /\ y = x * 2 ^ 15 /\ store_float y = Some (Fin x).
Proof.
  intros (Hf & Hn & Hx). rewrite load_float_eq by assumption. do 2 eexists. split; [reflexivity|].
  split; [unfold is_s16, sat16, clip; change (2 ^ 15) with 32768; lia|]. split; [reflexivity|].
  rewrite store_float_eq.
  - do 2 f_equal. unfold clip. lia.
  - apply f32_scale; try assumption. lia.
  - exact Hn.
  - rewrite Z.abs_mul, (Z.abs_eq (2 ^ 15)) by lia.
    assert (E : f32_lim = one * 2 ^ 128) by reflexivity. rewrite E.
    change (2 ^ 128) with (2 ^ 15 * 2 ^ 113). set (h := 2 ^ 113). assert (1 < h) by (vm_compute; reflexivity).
    assert (0 < one) by (vm_compute; reflexivity). set (o := one) in *. clearbody h o. nia.
Qed.
Print Assumptions C31_float_round_trip.

(** Any float sample below 2^30 is stored as the nearest sample, or saturated. The
    excess over half a step comes from the rounding of the addition. *)
Theorem C31_store_s16_nearest x : normal_f32 (2 ^ 30 * one) x ->
  exists s, store_s16 x = Some s /\ sample_of one (- 2 ^ 15) (2 ^ 15 - 1) (one / 2 ^ 9) x s.
Proof.
  intros (_ & _ & Hx). assert (Ho : 0 < one) by (vm_compute; reflexivity).
  destruct (store_s16_some x Hx) as (s & E & Es). unfold store_s16. rewrite E. cbn [option_map].
  eexists. split; [reflexivity|]. subst s. set (s := Z.sgn x * round_mag (Z.abs x)).
  assert (Hmono : forall y, y <= x -> Z.sgn y * round_mag (Z.abs y) <= s) by (intros; apply round_signed_mono; assumption).
  assert (Hmono2 : forall y, x <= y -> s <= Z.sgn y * round_mag (Z.abs y)) by (intros; apply round_signed_mono; assumption).
  pose proof (Hmono (- 2 ^ 15 * one)) as M1. pose proof (Hmono2 (- 2 ^ 15 * one)) as M2.
  pose proof (Hmono ((2 ^ 15 - 1) * one)) as M3. pose proof (Hmono2 ((2 ^ 15 - 1) * one)) as M4.
  change (Z.sgn (- 2 ^ 15 * one) * round_mag (Z.abs (- 2 ^ 15 * one))) with (- 2 ^ 15) in *.
  change (Z.sgn ((2 ^ 15 - 1) * one) * round_mag (Z.abs ((2 ^ 15 - 1) * one))) with (2 ^ 15 - 1) in *.
  unfold sample_of, sat16, clip. split; [lia|]. split; [|split; lia].
  intros H. specialize (M1 ltac:(lia)). specialize (M4 ltac:(lia)).
  rewrite Z.max_l, Z.min_l by lia.
  change (2 * (one / 2 ^ 9)) with (2 ^ 141). apply round_signed_near; [lia|].
  change (2 ^ (141 + 24)) with (2 ^ 15 * one + 2 ^ 15 * one). set (h := one / 2).
  assert (h < one) by (vm_compute; reflexivity). set (o := one) in *. clearbody h o.
  change (2 ^ 15) with 32768 in *. lia.
Qed.
Print Assumptions C31_store_s16_nearest.

Theorem C31_store_s24_nearest x : normal_f32 (2 ^ 22 * one) x ->
  exists s, store_s24 x = Some s /\
    sample_of (one / 256) (- 2 ^ 23) (2 ^ 23 - 1) (one / 512) x s.
Proof.
  intros (Hf & Hn & Hx). assert (Ho : 0 < one) by (vm_compute; reflexivity).
  set (step := one / 256). assert (Est : one = step * 2 ^ 8) by reflexivity.
  assert (Hstep : 0 < step) by (vm_compute; reflexivity).
  rewrite store_s24_scaled; [|exact Hf|exact Hn|].
  2:{ assert (E : f32_lim = one * 2 ^ 128) by reflexivity. rewrite E.
      change (2 ^ 128) with (2 ^ 22 * 2 ^ 8 * 2 ^ 98). set (h := 2 ^ 98). assert (1 < h) by (vm_compute; reflexivity).
      set (o := one) in *. clearbody h o. nia. }
  assert (Hx2 : Z.abs (x * 2 ^ 8) <= 2 ^ 30 * one).
  { rewrite Z.abs_mul, (Z.abs_eq (2 ^ 8)) by lia. change (2 ^ 30) with (2 ^ 22 * 2 ^ 8). set (o := one) in *. clearbody o. nia. }
  destruct (store_s16_some (x * 2 ^ 8) Hx2) as (s & E & Es). rewrite E. cbn [option_map].
  eexists. split; [reflexivity|]. subst s. set (y := x * 2 ^ 8) in *. set (s := Z.sgn y * round_mag (Z.abs y)).
  assert (Hmono : forall z, z <= y -> Z.sgn z * round_mag (Z.abs z) <= s) by (intros; apply round_signed_mono; assumption).
  assert (Hmono2 : forall z, y <= z -> s <= Z.sgn z * round_mag (Z.abs z)) by (intros; apply round_signed_mono; assumption).
  pose proof (Hmono (- 2 ^ 23 * one)) as M1. pose proof (Hmono2 (- 2 ^ 23 * one)) as M2.
  pose proof (Hmono ((2 ^ 23 - 1) * one)) as M3. pose proof (Hmono2 ((2 ^ 23 - 1) * one)) as M4.
  change (Z.sgn (- 2 ^ 23 * one) * round_mag (Z.abs (- 2 ^ 23 * one))) with (- 2 ^ 23) in *.
  change (Z.sgn ((2 ^ 23 - 1) * one) * round_mag (Z.abs ((2 ^ 23 - 1) * one))) with (2 ^ 23 - 1) in *.
  assert (Ey : forall z, x <= z * step <-> y <= z * one).
  { intros z. unfold y. rewrite Est. change (2 ^ 8) with 256. clearbody step. lia. }
  assert (Ey2 : forall z, z * step <= x <-> z * one <= y).
  { intros z. unfold y. rewrite Est. change (2 ^ 8) with 256. clearbody step. lia. }
  unfold sample_of, sat24, clip. split; [lia|]. split; [|split].
  - intros H. specialize (M1 (proj1 (Ey2 _) (proj1 H))). specialize (M4 (proj1 (Ey _) (proj2 H))).
    rewrite Z.max_l, Z.min_l by lia.
    assert (HN : 2 * Z.abs (s * one - y) <= one + 2 ^ 149).
    { apply round_signed_near; [lia|]. fold y.
      assert (Hy : Z.abs y <= 2 ^ 23 * one).
      { apply Z.abs_le. split.
        - pose proof (proj1 (Ey2 _) (proj1 H)). lia.
        - pose proof (proj1 (Ey _) (proj2 H)). lia. }
      change (2 ^ (149 + 24)) with (2 ^ 23 * one + 2 ^ 23 * one).
      assert (one / 2 < one) by (vm_compute; reflexivity). set (h := one / 2) in *. set (o := one) in *.
      clearbody h o. change (2 ^ 23) with 8388608 in *. lia. }
    change (2 ^ 149) with one in HN. unfold y in HN. rewrite Est in HN.
    change (2 * (one / 512)) with step. change (2 ^ 8) with 256 in *.
    replace (s * (step * 256) - x * 256) with ((s * step - x) * 256) in HN by ring.
    rewrite Z.abs_mul in HN. clearbody step. lia.
  - intros H. assert (y <= - 2 ^ 23 * one) by (apply Ey; lia). lia.
  - intros H. assert ((2 ^ 23 - 1) * one <= y) by (apply Ey2; lia). lia.
Qed.
Print Assumptions C31_store_s24_nearest.

(** Float output: scaled and limited to [-1, 1]; the magnitude is 0 or 2^-111 at least. *)
Theorem C31_store_float x : normal_f32 (2 ^ 127 * one) x -> x = 0 \/ one / 2 ^ 111 <= Z.abs x ->
  exists y, y * 2 ^ 15 = x /\ store_float x = Some (Fin (Z.max (- one) (Z.min y one))).
Proof.
  intros (Hf & Hn & Hx) Hm. assert (Ho : 0 < one) by (vm_compute; reflexivity).
  assert (Hd : x mod 2 ^ 15 = 0).
  { destruct Hm as [->|Hm]; [reflexivity|]. change (one / 2 ^ 111) with (2 ^ 38) in Hm.
    exact (f32_mult x 38 Hf ltac:(lia) Hm). }
  pose proof (Z.div_mod x (2 ^ 15) ltac:(lia)) as Ed. rewrite Hd, Z.add_0_r, Z.mul_comm in Ed.
  exists (x / 2 ^ 15). split; [congruence|]. set (y := x / 2 ^ 15) in *. rewrite Ed in *.
  rewrite store_float_eq; [|exact Hf| |].
  - do 2 f_equal. unfold clip. lia.
  - destruct Hm as [Hm|Hm]; [left; nia|right]. change (one / 2 ^ 111) with (2 ^ 23 * 2 ^ 15) in Hm.
    rewrite Z.abs_mul, (Z.abs_eq (2 ^ 15)) in Hm by lia. nia.
  - eapply Z.le_lt_trans; [exact Hx|]. vm_compute. reflexivity.
Qed.
Print Assumptions C31_store_float.

(** Finding: the exponent is decremented without any check, a positive sample
    of 2^-120 is output as -1 and the negative one overflows. *)
Theorem C31_store_float_tiny_refuted : exists x, is_f32 x /\ x = one / 2 ^ 120 /\
  store_float x = Some (Fin (- one)) /\ store_float (- x) = None.
Proof. exists (one / 2 ^ 120). vm_compute. auto. Qed.
Print Assumptions C31_store_float_tiny_refuted.

(** Finding: from 2^31 the conversion to an integer comes before the saturation, and
    is undefined; on input also, from a float of 65536. *)
Theorem C31_store_large_refuted : exists x, is_f32 x /\ x = 2 ^ 31 * one /\
  store_s16 x = None /\ store_s24 x = None /\ load_float (x / 2 ^ 15) = None.
Proof. exists (2 ^ 31 * one). vm_compute. auto. Qed.
Print Assumptions C31_store_large_refuted.

(** Samples of one channel among [nch]: written at their places, nothing else is
    changed, and read back; with [k] elements by sample (1, or 3 bytes if packed). *)
Theorem C31_channel_access {A} (d : A) k nch c mem (xs : list (list A)) :
  (0 < k)%nat -> 0 <= c < nch -> Forall (fun v => zlen v = Z.of_nat k) xs ->
  zlen mem = zlen xs * nch * Z.of_nat k ->
  exists mem', put_samples k nch mem (c * Z.of_nat k) xs = Some mem' /\ zlen mem' = zlen mem /\
    (forall i b, 0 <= i < zlen xs -> 0 <= b < Z.of_nat k ->
       znth mem' (elem_index (Z.of_nat k) nch c i b) d = znth (znth xs i []) b d) /\
    (forall c' i b, 0 <= c' < nch -> c' <> c -> 0 <= b < Z.of_nat k ->
       znth mem' (elem_index (Z.of_nat k) nch c' i b) d = znth mem (elem_index (Z.of_nat k) nch c' i b) d) /\
    get_samples k nch (length xs) mem' (c * Z.of_nat k) = Some xs.
Proof.
  intros Hk Hc Hf HL. set (K := Z.of_nat k) in *. assert (HK : 0 < K) by (unfold K; lia).
  pose proof (zlen_nonneg xs) as H0.
  assert (Hroom : xs <> [] -> c * K + K * (nch * (zlen xs - 1) + 1) <= zlen mem).
  { intros Hne. rewrite HL. assert (0 < zlen xs) by (destruct xs; [congruence|unfold zlen; cbn [length]; lia]).
    replace (zlen xs * nch * K) with (K * (nch * (zlen xs - 1)) + K * nch) by ring. nia. }
  destruct (put_samples_spec k nch Hk ltac:(lia) d xs mem (c * K) ltac:(nia) Hf Hroom)
    as (mem' & E & EL & Hin & Hout).
  assert (Eat : forall c' i b, elem_index K nch c' i b = at_ k nch (c' * K) i b).
  { intros. unfold elem_index, at_. fold K. ring. }
  exists mem'. split; [exact E|]. split; [exact EL|]. split; [|split].
  - intros i b Hi Hb. rewrite Eat. apply Hin; assumption.
  - intros c' i b Hc' Hne Hb. apply Hout. intros i' b' _ Hb'. rewrite Eat. unfold at_. fold K.
    apply channel_disjoint; assumption.
  - destruct (get_samples_spec k nch Hk ltac:(lia) d (length xs) mem' (c * K) ltac:(nia)) as (ys & E2 & EL2 & Hf2 & Hin2).
    { intros Hn. rewrite EL. fold K. apply Hroom. destruct xs; [cbn in Hn; lia|discriminate]. }
    rewrite E2. f_equal. apply (list_znth_eq []); [unfold zlen; lia|].
    intros i Hi. assert (Hi2 : 0 <= i < zlen xs) by (unfold zlen in *; lia).
    assert (L1 : zlen (znth ys i []) = K /\ zlen (znth xs i []) = K).
    { split; unfold znth; replace (i <? 0) with false by lia.
      - rewrite Forall_forall in Hf2. apply Hf2, nth_In. unfold zlen in Hi. lia.
      - rewrite Forall_forall in Hf. apply Hf, nth_In. unfold zlen in Hi2. lia. }
    apply (list_znth_eq d); [lia|]. intros b Hb. rewrite Hin2 by (try (fold K); unfold zlen in *; lia).
    apply Hin; lia.
Qed.
Print Assumptions C31_channel_access.

Example C31_example :
  (is_s16 (-32768) /\ store_s16 (-32768 * one) = Some (-32768)) /\
  (is_s24 (-1) /\ load_s24 (-1) = (-1, Some (Fin (- (one / 256))))) /\
  (le24_value 1 0 128 = 1 - 2 ^ 23 /\ fst (load_s24_3le 1 0 128) = -32768) /\
  (normal_f32 one (3 * one / 4) /\ load_float (3 * one / 4) = Some (24576, Fin (24576 * one))) /\
  (* saturation, and the largest number below 1/2 *)
  (normal_f32 (2 ^ 30 * one) (40000 * one) /\ store_s16 (40000 * one) = Some 32767) /\
  (normal_f32 (2 ^ 30 * one) (one / 2 - one / 2 ^ 25) /\ store_s16 (one / 2 - one / 2 ^ 25) = Some 1) /\
  put_samples 1 2 [1; 2; 3; 4; 5; 6] 1 [[10]; [20]; [30]] = Some [1; 10; 3; 20; 5; 30] /\
  put_samples 1 2 [1; 2; 3; 4; 5] 1 [[10]; [20]; [30]] = None.
Proof.
  unfold is_s16, is_s24, normal_f32, is_f32. repeat split; try (vm_compute; congruence);
    right; vm_compute; discriminate.
Qed.
