(** * Proofs on the PCM conversions *)
From Coq Require Import ZArith List Bool Lia ZifyBool.
From Verif Require Import Base BaseProofs ConfigModel FloatModel FloatProofs PcmModel.
Import ListNotations.
Local Open Scope Z_scope.

(** Significand and exponent of a normal number. *)
Lemma log2_mant M e : 0 <= e -> 2 ^ 23 <= M < 2 ^ 24 -> Z.log2 (M * 2 ^ e) = 23 + e.
Proof.
  intros He HM. rewrite Z.log2_mul_pow2 by lia.
  rewrite (Z.log2_unique M 23); [lia|lia|]. change (Z.succ 23) with 24. lia.
Qed.

Lemma f32_mant x : is_f32 x -> 2 ^ 23 <= Z.abs x ->
  exists M e, 0 <= e /\ 2 ^ 23 <= M < 2 ^ 24 /\ Z.abs x = M * 2 ^ e.
Proof.
  intros Hx Ha. set (l := Z.log2 (Z.abs x)).
  assert (Hl : 23 <= l) by (unfold l; rewrite <- (Z.log2_pow2 23) by lia; apply Z.log2_le_mono; lia).
  destruct (Z.log2_spec (Z.abs x) ltac:(lia)) as [H1 H2]. fold l in H1, H2.
  pose proof (f32_mult x l Hx Hl H1) as Hm.
  assert (Hd : (2 ^ (l - 23) | Z.abs x)).
  { apply Z.divide_abs_r. apply Z.mod_divide; [pose proof (pow2_pos (l - 23) ltac:(lia)); lia|exact Hm]. }
  destruct Hd as [M HM]. exists M, (l - 23). split; [lia|]. split; [|exact HM].
  assert (E1 : 2 ^ l = 2 ^ 23 * 2 ^ (l - 23)) by (rewrite <- Z.pow_add_r by lia; f_equal; lia).
  assert (E2 : 2 ^ Z.succ l = 2 ^ 24 * 2 ^ (l - 23)) by (rewrite <- Z.pow_add_r by lia; f_equal; lia).
  pose proof (pow2_pos (l - 23) ltac:(lia)). split; nia.
Qed.

Lemma mant_mag M e : 0 <= e -> 2 ^ 23 <= M < 2 ^ 24 ->
  exp_field (M * 2 ^ e) = e + 1 /\ PcmModel.mag_bits (M * 2 ^ e) = (e + 1) * 2 ^ 23 + (M - 2 ^ 23).
Proof.
  intros He HM. assert (E : exp_field (M * 2 ^ e) = e + 1).
  { unfold exp_field. rewrite log2_mant by assumption. lia. }
  split; [exact E|]. unfold PcmModel.mag_bits. rewrite E.
  replace (e + 1 =? 0) with false by lia. replace (e + 1 - 1) with e by lia.
  rewrite Z.div_mul by (pose proof (pow2_pos e He); lia). reflexivity.
Qed.

Lemma of_mag_mant neg M e : 0 <= e <= 253 -> 2 ^ 23 <= M < 2 ^ 24 ->
  of_mag neg ((e + 1) * 2 ^ 23 + (M - 2 ^ 23)) = Fin (if neg then - (M * 2 ^ e) else M * 2 ^ e).
Proof.
  intros He HM. unfold of_mag.
  rewrite Z.add_comm, Z.div_add, Z.mod_add by lia.
  rewrite Z.div_small, Z.mod_small by lia. rewrite Z.add_0_l.
  replace (e + 1 =? 255) with false by lia. replace (e + 1 =? 0) with false by lia.
  replace (e + 1 - 1) with e by lia. replace (2 ^ 23 + (M - 2 ^ 23)) with M by lia. reflexivity.
Qed.

Lemma mant_signed x M e : 0 <= e <= 253 -> 2 ^ 23 <= M < 2 ^ 24 -> Z.abs x = M * 2 ^ e ->
  i32 (to_bits x) = (if x <? 0 then - 2 ^ 31 else 0) + ((e + 1) * 2 ^ 23 + (M - 2 ^ 23)).
Proof.
  intros He HM Hx. unfold to_bits. rewrite Hx. rewrite (proj2 (mant_mag M e ltac:(lia) HM)).
  unfold i32. change (2 ^ 31) with 2147483648. change (2 ^ 32) with 4294967296.
  change (2 ^ 23) with 8388608 in *. change (2 ^ 24) with 16777216 in *.
  destruct (x <? 0).
  - rewrite Z.mod_eq by lia.
    replace ((2147483648 + ((e + 1) * 8388608 + (M - 8388608)) + 2147483648) / 4294967296) with 1; [lia|].
    apply Z.div_unique with (r := (e + 1) * 8388608 + (M - 8388608)); lia.
  - rewrite Z.mod_small by lia. lia.
Qed.

(** lc3_ldexpf is the scaling while the exponent stays in the range of the normals. *)
Lemma ldexpf_mant x M e k : 0 <= e <= 253 -> 2 ^ 23 <= M < 2 ^ 24 -> Z.abs x = M * 2 ^ e ->
  0 <= e + k <= 253 -> ldexpf x k = Some (Fin (Z.sgn x * (M * 2 ^ (e + k)))).
Proof.
  intros He HM Hx Hk. pose proof (pow2_pos e ltac:(lia)) as Hp.
  unfold ldexpf. rewrite (mant_signed x M e He HM Hx).
  rewrite Hx. rewrite (proj1 (mant_mag M e ltac:(lia) HM)). replace (e + 1 =? 0) with false by lia.
  set (B := (e + k + 1) * 2 ^ 23 + (M - 2 ^ 23)).
  replace ((if x <? 0 then - 2 ^ 31 else 0) + ((e + 1) * 2 ^ 23 + (M - 2 ^ 23)) + k * 2 ^ 23)
    with ((if x <? 0 then - 2 ^ 31 else 0) + B) by (unfold B; lia).
  assert (HB : 0 <= B < 2 ^ 31).
  { unfold B. change (2 ^ 23) with 8388608 in *. change (2 ^ 24) with 16777216 in *.
    change (2 ^ 31) with 2147483648. lia. }
  assert (Ec : cint ((if x <? 0 then - 2 ^ 31 else 0) + B) = Some ((if x <? 0 then - 2 ^ 31 else 0) + B)).
  { unfold cint. replace (_ && _) with true; [reflexivity|]. symmetry.
    unfold INT_MIN, INT_MAX. change (2 ^ 31) with 2147483648 in *. destruct (x <? 0); lia. }
  rewrite Ec. f_equal.
  assert (EO : of_bits (u32 ((if x <? 0 then - 2 ^ 31 else 0) + B)) = of_mag (x <? 0) B).
  { unfold of_bits, u32. change (2 ^ 31) with 2147483648 in *. change (2 ^ 32) with 4294967296.
    destruct (x <? 0) eqn:E.
    - replace ((- (2147483648) + B) mod 4294967296) with (2147483648 + B).
      + replace (2147483648 <=? 2147483648 + B) with true by lia.
        replace ((2147483648 + B) mod 2147483648) with B; [reflexivity|].
        apply Z.mod_unique with 1; lia.
      + apply Z.mod_unique with (-1); lia.
    - rewrite Z.add_0_l, Z.mod_small by lia. replace (2147483648 <=? B) with false by lia.
      rewrite Z.mod_small by lia. reflexivity. }
  rewrite EO. unfold B. rewrite of_mag_mant by lia. f_equal.
  destruct (x <? 0) eqn:E.
  - rewrite Z.sgn_neg by lia. lia.
  - rewrite Z.sgn_pos by nia. lia.
Qed.

(** Largest finite magnitude, excluded. *)
Definition f32_lim : Z := 2 ^ 277.

Lemma mant_range M e a : 0 <= e -> 2 ^ 23 <= M < 2 ^ 24 -> a = M * 2 ^ e -> a < f32_lim -> e <= 253.
Proof.
  intros He HM -> Ha. destruct (Z_le_gt_dec e 253) as [H|H]; [exact H|exfalso].
  assert (2 ^ 254 <= 2 ^ e) by (apply Z.pow_le_mono_r; lia).
  assert (E : f32_lim = 2 ^ 23 * 2 ^ 254) by reflexivity. rewrite E in Ha. nia.
Qed.

Lemma ldexpf_up x k : is_f32 x -> x = 0 \/ 2 ^ 23 <= Z.abs x -> 0 <= k -> Z.abs x * 2 ^ k < f32_lim ->
  ldexpf x k = Some (Fin (x * 2 ^ k)).
Proof.
  intros Hx H0 Hk Hl. pose proof (pow2_pos k Hk) as Hpk. destruct H0 as [->|Ha].
  { rewrite Z.mul_0_l. reflexivity. }
  destruct (f32_mant x Hx Ha) as (M & e & He & HM & E).
  assert (Hek : e + k <= 253).
  { apply (mant_range M (e + k) (Z.abs x * 2 ^ k)); [lia|exact HM| |exact Hl].
    rewrite E, Z.pow_add_r by lia. lia. }
  rewrite (ldexpf_mant x M e k) by (try assumption; lia). do 2 f_equal.
  rewrite Z.pow_add_r, (Z.mul_assoc M), <- E, Z.mul_assoc by lia. rewrite Z.mul_comm with (n := Z.sgn x), Z.mul_comm with (n := x).
  rewrite (Z.mul_comm _ (2 ^ k)). f_equal. pose proof (Z.sgn_abs x). lia.
Qed.

Lemma ldexpf_down y k : is_f32 (y * 2 ^ k) -> y = 0 \/ 2 ^ 23 <= Z.abs y -> 0 <= k ->
  Z.abs (y * 2 ^ k) < f32_lim -> ldexpf (y * 2 ^ k) (- k) = Some (Fin y).
Proof.
  intros Hx H0 Hk Hl. pose proof (pow2_pos k Hk) as Hpk. destruct H0 as [->|Ha].
  { rewrite Z.mul_0_l. reflexivity. }
  assert (Eab : Z.abs (y * 2 ^ k) = Z.abs y * 2 ^ k) by (rewrite Z.abs_mul, (Z.abs_eq (2 ^ k)); lia).
  assert (Ha2 : 2 ^ 23 <= Z.abs (y * 2 ^ k)) by nia.
  destruct (f32_mant _ Hx Ha2) as (M & e & He & HM & E).
  pose proof (mant_range M e _ He HM E Hl) as He2.
  assert (Hek : k <= e).
  { destruct (Z_le_gt_dec k e) as [H|H]; [exact H|exfalso].
    assert (E2 : 2 ^ k = 2 ^ (k - e) * 2 ^ e) by (rewrite <- Z.pow_add_r by lia; f_equal; lia).
    rewrite Eab, E2 in E. pose proof (pow2_pos e He).
    assert (2 ^ 1 <= 2 ^ (k - e)) by (apply Z.pow_le_mono_r; lia). change (2 ^ 1) with 2 in *.
    change (2 ^ 24) with (2 * 2 ^ 23) in HM. nia. }
  rewrite (ldexpf_mant _ M e (- k)) by (try assumption; lia). do 2 f_equal.
  assert (E3 : Z.abs y = M * 2 ^ (e + - k)).
  { rewrite Eab in E. assert (E4 : 2 ^ e = 2 ^ (e + - k) * 2 ^ k) by (rewrite <- Z.pow_add_r by lia; f_equal; lia).
    rewrite E4, Z.mul_assoc in E. apply Z.mul_reg_r in E; [exact E|lia]. }
  rewrite <- E3. rewrite Z.sgn_mul, (Z.sgn_pos (2 ^ k)) by lia. pose proof (Z.sgn_abs y). lia.
Qed.

(** ** Exact values *)

Lemma one_pow : one = 2 ^ 149. Proof. reflexivity. Qed.

Lemma f32_int v k : 0 <= k -> Z.abs v <= 2 ^ 24 -> is_f32 (v * 2 ^ k).
Proof.
  intros Hk Hv. pose proof (pow2_pos k Hk) as Hp. unfold is_f32. apply rnd_exact with (e := k); [exact Hk| |].
  - rewrite Z.abs_mul, (Z.abs_eq (2 ^ k)), Z.pow_add_r by lia. nia.
  - apply Z.mod_mul. lia.
Qed.

Lemma f32_int_lim v k : 0 <= k <= 252 -> Z.abs v <= 2 ^ 24 -> Z.abs (v * 2 ^ k) < f32_lim.
Proof.
  intros Hk Hv. pose proof (pow2_pos k ltac:(lia)) as Hp.
  assert (2 ^ k <= 2 ^ 252) by (apply Z.pow_le_mono_r; lia).
  rewrite Z.abs_mul, (Z.abs_eq (2 ^ k)) by lia.
  assert (E : f32_lim = 2 ^ 24 * 2 ^ 252 * 2) by reflexivity. rewrite E.
  set (h := 2 ^ 252) in *. clearbody h. nia.
Qed.

Lemma int_normal v k : 23 <= k -> v * 2 ^ k = 0 \/ 2 ^ 23 <= Z.abs (v * 2 ^ k).
Proof.
  intros Hk. destruct (Z.eq_dec v 0) as [->|Hv]; [left; reflexivity|right].
  assert (2 ^ 23 <= 2 ^ k) by (apply Z.pow_le_mono_r; lia).
  rewrite Z.abs_mul, (Z.abs_eq (2 ^ k)) by lia. nia.
Qed.

Lemma load_s16_eq v : - 2 ^ 15 <= v < 2 ^ 15 -> load_s16 v = (v, Some (Fin (v * one))).
Proof.
  intros Hv. unfold load_s16. do 3 f_equal. rewrite one_pow. apply f32_int; [lia|].
  change (2 ^ 24) with 16777216. change (2 ^ 15) with 32768 in Hv. lia.
Qed.

Lemma load_s24_eq v : - 2 ^ 23 <= v < 2 ^ 23 -> load_s24 v = (v / 2 ^ 8, Some (Fin (v * 2 ^ 141))).
Proof.
  intros Hv. unfold load_s24.
  assert (Hv2 : Z.abs v <= 2 ^ 24) by (change (2 ^ 24) with (2 * 2 ^ 23); lia).
  rewrite one_pow, (f32_int v 149) by (try assumption; lia). f_equal.
  - unfold i16. change (2 ^ 15) with 32768. change (2 ^ 16) with 65536. change (2 ^ 8) with 256.
    change (2 ^ 23) with 8388608 in *.
    pose proof (Z.div_mod v 256 ltac:(lia)). pose proof (Z.mod_pos_bound v 256 ltac:(lia)).
    rewrite Z.mod_small; lia.
  - replace (v * 2 ^ 149) with (v * 2 ^ 141 * 2 ^ 8) by (rewrite <- Z.mul_assoc, <- Z.pow_add_r by lia; reflexivity).
    apply (ldexpf_down (v * 2 ^ 141) 8).
    + rewrite <- Z.mul_assoc, <- Z.pow_add_r by lia. apply f32_int; [lia|exact Hv2].
    + apply int_normal. lia.
    + lia.
    + rewrite <- Z.mul_assoc, <- Z.pow_add_r by lia. apply f32_int_lim; [lia|exact Hv2].
Qed.

(** ** Rounding *)

Lemma rnd_pos_error a : 0 <= a -> 2 * Z.abs (rnd_pos a - a) <= 2 ^ f_exp a.
Proof.
  intros Ha. unfold rnd_pos. set (e := f_exp a). pose proof (pow2_pos e (f_exp_nonneg a)) as Hp.
  pose proof (Z.div_mod a (2 ^ e) ltac:(lia)) as Hd. pose proof (Z.mod_pos_bound a (2 ^ e) Hp) as Hm.
  set (q := a / 2 ^ e) in *. set (r := a mod 2 ^ e) in *.
  destruct ((2 * r <? 2 ^ e) || ((2 * r =? 2 ^ e) && Z.even q)) eqn:E.
  - replace (q * 2 ^ e - a) with (- r) by lia. lia.
  - replace ((q + 1) * 2 ^ e - a) with (2 ^ e - r) by lia. lia.
Qed.

Lemma f_exp_le a n : 0 <= n -> a < 2 ^ (n + 24) -> f_exp a <= n.
Proof.
  intros Hn Ha. unfold f_exp. destruct (Z_le_gt_dec a 0) as [H0|H0].
  - rewrite Z.log2_nonpos by lia. lia.
  - pose proof (Z.log2_lt_pow2 a (n + 24) ltac:(lia)). lia.
Qed.

Lemma rnd_pos_error_le a n : 0 <= a -> 0 <= n -> a < 2 ^ (n + 24) -> 2 * Z.abs (rnd_pos a - a) <= 2 ^ n.
Proof.
  intros Ha Hn H. eapply Z.le_trans; [apply rnd_pos_error; exact Ha|].
  apply Z.pow_le_mono_r; [lia|apply f_exp_le; assumption].
Qed.

(** Rounded magnitude. *)
Definition round_mag (a : Z) : Z := rnd_pos (a + one / 2) / one.

Lemma round_int_mag x : round_int x (Fin x) = cint (Z.sgn x * round_mag (Z.abs x)).
Proof.
  assert (Ho : 0 < one) by (rewrite one_pow; apply pow2_pos; lia).
  assert (Hh : one / 2 + one / 2 = one) by reflexivity.
  set (h := one / 2) in *.
  unfold round_int, to_int, round_mag. fold h. cbn [addf].
  assert (Hq : forall a, 0 <= a -> rnd (a + h) ÷ one = rnd_pos (a + h) / one).
  { intros a Ha. rewrite rnd_pos_eq by lia. apply Z.quot_div_nonneg; [|exact Ho].
    rewrite <- rnd_pos_eq by lia. apply rnd_nonneg. lia. }
  destruct (0 <=? x) eqn:E.
  - rewrite Hq by lia. rewrite (Z.abs_eq x) by lia.
    destruct (Z.eq_dec x 0) as [->|Hx]; [|rewrite Z.sgn_pos by lia; f_equal; lia].
    f_equal.
  - replace (x + - h) with (- (- x + h)) by lia. rewrite rnd_opp, Z.quot_opp_l by lia.
    rewrite Hq by lia. rewrite Z.sgn_neg, Z.abs_neq by lia. f_equal; lia.
Qed.

Lemma round_mag_mono a b : 0 <= a <= b -> round_mag a <= round_mag b.
Proof.
  intros H. unfold round_mag. apply Z.div_le_mono; [rewrite one_pow; apply pow2_pos; lia|].
  apply rnd_pos_mono. assert (0 <= one / 2) by (vm_compute; discriminate). lia.
Qed.

Lemma round_mag_nonneg a : 0 <= a -> 0 <= round_mag a.
Proof. intros H. change 0 with (round_mag 0). apply round_mag_mono. lia. Qed.

Lemma round_mag_near a n : 0 <= a -> 0 <= n -> a + one / 2 < 2 ^ (n + 24) ->
  2 * Z.abs (round_mag a * one - a) <= one + 2 ^ n.
Proof.
  intros Ha Hn Hlt. assert (Ho : 0 < one) by (rewrite one_pow; apply pow2_pos; lia).
  assert (Hh : one / 2 + one / 2 = one) by reflexivity. set (h := one / 2) in *.
  pose proof (rnd_pos_error_le (a + h) n ltac:(lia) Hn Hlt) as He.
  unfold round_mag. fold h. set (r := rnd_pos (a + h)) in *.
  pose proof (Z.div_mod r one ltac:(lia)). pose proof (Z.mod_pos_bound r one Ho). lia.
Qed.

Lemma round_mag_int v : 0 <= v < 2 ^ 23 -> round_mag (v * one) = v.
Proof.
  intros Hv. assert (Ho : 0 < one) by (rewrite one_pow; apply pow2_pos; lia).
  assert (Hh : one / 2 * 2 = one) by reflexivity. assert (Eh : one / 2 = 2 ^ 148) by reflexivity.
  unfold round_mag. rewrite Eh in *. rewrite <- Hh. rewrite rnd_pos_exact with (e := 148).
  - symmetry. apply Z.div_unique with (r := 2 ^ 148); lia.
  - lia.
  - rewrite Z.pow_add_r by lia. change (2 ^ 24) with (2 * 2 ^ 23). nia.
  - replace (v * (2 ^ 148 * 2) + 2 ^ 148) with ((2 * v + 1) * 2 ^ 148) by ring. apply Z.mod_mul. lia.
Qed.
Lemma round_mag_24 : round_mag (2 ^ 23 * one) = 2 ^ 23.
Proof. vm_compute. reflexivity. Qed.

Lemma cint_ok v : - 2 ^ 31 <= v < 2 ^ 31 -> cint v = Some v.
Proof.
  intros H. unfold cint. replace (_ && _) with true; [reflexivity|]. symmetry.
  unfold INT_MIN, INT_MAX. change (2 ^ 31) with 2147483648 in *. lia.
Qed.

Lemma round_int_exact v : - 2 ^ 23 <= v < 2 ^ 23 -> round_int (v * one) (Fin (v * one)) = Some v.
Proof.
  intros Hv. assert (Ho : 0 < one) by (rewrite one_pow; apply pow2_pos; lia).
  rewrite round_int_mag. rewrite Z.abs_mul, Z.sgn_mul, (Z.abs_eq one), (Z.sgn_pos one) by lia.
  assert (E : round_mag (Z.abs v * one) = Z.abs v).
  { destruct (Z.eq_dec v (- 2 ^ 23)) as [->|Hn]; [exact round_mag_24|]. apply round_mag_int. lia. }
  rewrite E. replace (Z.sgn v * 1 * Z.abs v) with v by (pose proof (Z.sgn_abs v); lia).
  apply cint_ok. change (2 ^ 31) with (256 * 2 ^ 23). lia.
Qed.

Lemma store_s16_eq v : - 2 ^ 15 <= v < 2 ^ 15 -> store_s16 (v * one) = Some v.
Proof.
  intros Hv. unfold store_s16. rewrite round_int_exact by (change (2 ^ 23) with (256 * 2 ^ 15); lia).
  cbn [option_map]. f_equal. unfold sat16, clip. lia.
Qed.

Lemma round_int_scaled x k v : 0 < k -> round_int x (Fin (x * k)) = v -> round_int (x * k) (Fin (x * k)) = v.
Proof.
  intros Hk <-. unfold round_int. replace (0 <=? x * k) with (0 <=? x); [reflexivity|].
  destruct (0 <=? x) eqn:E; symmetry; nia.
Qed.

(** Scaled sample of 24 bits. *)
Lemma store_s24_scaled x : is_f32 x -> x = 0 \/ 2 ^ 23 <= Z.abs x -> Z.abs x * 2 ^ 8 < f32_lim ->
  store_s24 x = option_map sat24 (round_int (x * 2 ^ 8) (Fin (x * 2 ^ 8))).
Proof.
  intros Hf Hn Hl. unfold store_s24. rewrite (ldexpf_up x 8) by (try assumption; lia). f_equal.
  symmetry. apply round_int_scaled; [lia|reflexivity].
Qed.

Lemma store_s24_eq v : - 2 ^ 23 <= v < 2 ^ 23 -> store_s24 (v * 2 ^ 141) = Some v.
Proof.
  intros Hv. assert (Hv2 : Z.abs v <= 2 ^ 24) by (change (2 ^ 24) with (2 * 2 ^ 23); lia).
  assert (E : v * 2 ^ 141 * 2 ^ 8 = v * one) by (rewrite <- Z.mul_assoc, <- Z.pow_add_r by lia; reflexivity).
  rewrite store_s24_scaled.
  - rewrite E, round_int_exact by lia. cbn [option_map]. f_equal. unfold sat24, clip. lia.
  - apply f32_int; [lia|exact Hv2].
  - apply int_normal. lia.
  - replace (Z.abs (v * 2 ^ 141) * 2 ^ 8) with (Z.abs (v * one)); [apply f32_int_lim; [lia|exact Hv2]|].
    rewrite <- E, (Z.abs_mul (v * 2 ^ 141)), (Z.abs_eq (2 ^ 8)) by lia. reflexivity.
Qed.

(** Nearest sample, saturation, monotonicity. *)
Lemma store_s16_some x : Z.abs x <= 2 ^ 30 * one -> exists s, round_int x (Fin x) = Some s /\
  s = Z.sgn x * round_mag (Z.abs x).
Proof.
  intros Hx. rewrite round_int_mag. eexists. split; [|reflexivity]. apply cint_ok.
  assert (H : round_mag (Z.abs x) <= round_mag (2 ^ 30 * one)) by (apply round_mag_mono; lia).
  change (round_mag (2 ^ 30 * one)) with (2 ^ 30) in H.
  pose proof (round_mag_nonneg (Z.abs x) ltac:(lia)).
  change (2 ^ 31) with (2 * 2 ^ 30). destruct (Z.sgn_spec x) as [(_ & ->)|[(_ & ->)|(_ & ->)]]; lia.
Qed.

Lemma round_signed_near x n : 0 <= n -> Z.abs x + one / 2 < 2 ^ (n + 24) ->
  2 * Z.abs (Z.sgn x * round_mag (Z.abs x) * one - x) <= one + 2 ^ n.
Proof.
  intros Hn Hlt. pose proof (round_mag_near (Z.abs x) n ltac:(lia) Hn Hlt) as H.
  destruct (Z.sgn_spec x) as [(Hs & ->)|[(Hs & ->)|(Hs & ->)]].
  - rewrite (Z.abs_eq x) in * by lia. lia.
  - subst x. rewrite Z.abs_0 in *. change (round_mag 0) with 0 in *. lia.
  - rewrite (Z.abs_neq x) in * by lia. lia.
Qed.

Lemma round_signed_mono x y : x <= y ->
  Z.sgn x * round_mag (Z.abs x) <= Z.sgn y * round_mag (Z.abs y).
Proof.
  intros H. pose proof (round_mag_nonneg (Z.abs x) ltac:(lia)). pose proof (round_mag_nonneg (Z.abs y) ltac:(lia)).
  destruct (Z.sgn_spec x) as [(Hx & ->)|[(Hx & ->)|(Hx & ->)]];
    destruct (Z.sgn_spec y) as [(Hy & ->)|[(Hy & ->)|(Hy & ->)]]; try lia.
  - assert (round_mag (Z.abs x) <= round_mag (Z.abs y)) by (apply round_mag_mono; lia). lia.
  - assert (round_mag (Z.abs y) <= round_mag (Z.abs x)) by (apply round_mag_mono; lia). lia.
Qed.

(** ** Packed samples of 24 bits *)

(** Little-endian two's complement value. *)
Definition le24 (b0 b1 b2 : Z) : Z :=
  let u := b0 + 256 * b1 + 65536 * b2 in if u <? 2 ^ 23 then u else u - 2 ^ 24.

Lemma le24_range b0 b1 b2 : bytes [b0; b1; b2] -> - 2 ^ 23 <= le24 b0 b1 b2 < 2 ^ 23.
Proof.
  intros H. pose proof (Forall_inv H). pose proof (Forall_inv (Forall_inv_tail H)).
  pose proof (Forall_inv (Forall_inv_tail (Forall_inv_tail H))). cbv beta in *.
  unfold le24. change (2 ^ 23) with 8388608. change (2 ^ 24) with 16777216.
  destruct (_ <? _) eqn:E; lia.
Qed.

Lemma load_s24_3le_eq b0 b1 b2 : bytes [b0; b1; b2] ->
  load_s24_3le b0 b1 b2 = load_s24 (le24 b0 b1 b2).
Proof.
  intros H. pose proof (le24_range _ _ _ H) as Hr. rewrite load_s24_eq by exact Hr.
  pose proof (Forall_inv H) as H0. pose proof (Forall_inv (Forall_inv_tail H)) as H1.
  pose proof (Forall_inv (Forall_inv_tail (Forall_inv_tail H))) as H2. cbv beta in *.
  set (v := le24 b0 b1 b2) in *.
  assert (E : i32 (Z.lor (Z.lor (shl b0 8) (shl b1 16)) (shl b2 24)) = v * 2 ^ 8).
  { unfold shl.
    replace (b1 * 2 ^ 16) with ((b1 * 2 ^ 8) * 2 ^ 8) by lia.
    replace (b2 * 2 ^ 24) with ((b2 * 2 ^ 16) * 2 ^ 8) by lia.
    rewrite <- !Z.shiftl_mul_pow2, <- !Z.shiftl_lor, !Z.shiftl_mul_pow2 by lia.
    rewrite (lor_add b0 b1 8) by (change (2 ^ 8) with 256; lia).
    rewrite (lor_add _ b2 16) by (change (2 ^ 8) with 256; change (2 ^ 16) with 65536; lia).
    unfold v, le24, i32. change (2 ^ 8) with 256. change (2 ^ 16) with 65536. change (2 ^ 23) with 8388608.
    change (2 ^ 24) with 16777216. change (2 ^ 31) with 2147483648. change (2 ^ 32) with 4294967296.
    set (u := b0 + b1 * 256 + b2 * 65536). replace (b0 + 256 * b1 + 65536 * b2) with u by (unfold u; lia).
    assert (Hu : 0 <= u < 16777216) by (unfold u; lia). clearbody u.
    destruct (u <? 8388608) eqn:E.
    - rewrite Z.mod_small by lia. lia.
    - replace ((u * 256 + 2147483648) mod 4294967296) with (u * 256 - 2147483648); [lia|].
      apply Z.mod_unique with 1; lia. }
  unfold load_s24_3le. rewrite E.
  assert (Hv2 : Z.abs v <= 2 ^ 24) by (change (2 ^ 24) with (2 * 2 ^ 23); lia).
  replace (v * 2 ^ 8 * one) with (v * 2 ^ 157) by (rewrite one_pow, <- Z.mul_assoc, <- Z.pow_add_r by lia; reflexivity).
  rewrite (f32_int v 157) by (try assumption; lia). f_equal.
  - replace (v * 2 ^ 8 / 2 ^ 16) with (v / 2 ^ 8).
    + unfold i16. change (2 ^ 15) with 32768. change (2 ^ 16) with 65536. change (2 ^ 8) with 256.
      change (2 ^ 23) with 8388608 in *.
      pose proof (Z.div_mod v 256 ltac:(lia)). pose proof (Z.mod_pos_bound v 256 ltac:(lia)).
      rewrite Z.mod_small; lia.
    + change (2 ^ 16) with (2 ^ 8 * 2 ^ 8). rewrite Z.div_mul_cancel_r by lia. reflexivity.
  - replace (v * 2 ^ 157) with (v * 2 ^ 141 * 2 ^ 16) by (rewrite <- Z.mul_assoc, <- Z.pow_add_r by lia; reflexivity).
    apply (ldexpf_down (v * 2 ^ 141) 16).
    + rewrite <- Z.mul_assoc, <- Z.pow_add_r by lia. apply f32_int; [lia|exact Hv2].
    + apply int_normal. lia.
    + lia.
    + rewrite <- Z.mul_assoc, <- Z.pow_add_r by lia. apply f32_int_lim; [lia|exact Hv2].
Qed.

Lemma land_255 v : Z.land v 255 = v mod 256.
Proof. change 255 with (Z.ones 8). rewrite Z.land_ones by lia. reflexivity. Qed.

Lemma bytes_le24 s : - 2 ^ 23 <= s < 2 ^ 23 ->
  exists b0 b1 b2, [Z.land s 255; Z.land (s / 2 ^ 8) 255; Z.land (s / 2 ^ 16) 255] = [b0; b1; b2] /\
    bytes [b0; b1; b2] /\ le24 b0 b1 b2 = s.
Proof.
  intros Hs. do 3 eexists. split; [reflexivity|]. rewrite !land_255.
  split.
  { repeat apply Forall_cons; try apply Forall_nil; apply Z.mod_pos_bound; lia. }
  unfold le24. change (2 ^ 23) with 8388608 in *. change (2 ^ 24) with 16777216.
  change (2 ^ 16) with (256 * 256). change (2 ^ 8) with 256. rewrite <- Z.div_div by lia.
  pose proof (Z.div_mod s 256 ltac:(lia)). pose proof (Z.mod_pos_bound s 256 ltac:(lia)).
  pose proof (Z.div_mod (s / 256) 256 ltac:(lia)). pose proof (Z.mod_pos_bound (s / 256) 256 ltac:(lia)).
  set (q := s / 256 / 256) in *.
  pose proof (Z.div_mod q 256 ltac:(lia)). pose proof (Z.mod_pos_bound q 256 ltac:(lia)).
  destruct (_ <? _) eqn:E; lia.
Qed.

Lemma le24_bytes b0 b1 b2 : bytes [b0; b1; b2] -> let s := le24 b0 b1 b2 in
  [Z.land s 255; Z.land (s / 2 ^ 8) 255; Z.land (s / 2 ^ 16) 255] = [b0; b1; b2].
Proof.
  intros H s. pose proof (le24_range _ _ _ H) as Hr. fold s in Hr.
  pose proof (Forall_inv H) as H0. pose proof (Forall_inv (Forall_inv_tail H)) as H1.
  pose proof (Forall_inv (Forall_inv_tail (Forall_inv_tail H))) as H2. cbv beta in *.
  rewrite !land_255. change (2 ^ 16) with (256 * 256). change (2 ^ 8) with 256. rewrite <- Z.div_div by lia.
  assert (Hs : exists k, s = b0 + 256 * b1 + 65536 * b2 + 16777216 * k).
  { unfold s, le24. change (2 ^ 24) with 16777216. destruct (_ <? _); [exists 0|exists (-1)]; lia. }
  destruct Hs as [k ->].
  assert (E1 : (b0 + 256 * b1 + 65536 * b2 + 16777216 * k) / 256 = b1 + 256 * b2 + 65536 * k).
  { symmetry. apply Z.div_unique with (r := b0); lia. }
  rewrite E1.
  assert (E2 : (b1 + 256 * b2 + 65536 * k) / 256 = b2 + 256 * k).
  { symmetry. apply Z.div_unique with (r := b1); lia. }
  rewrite E2. f_equal; [|f_equal; [|f_equal]].
  - symmetry. apply Z.mod_unique with (b1 + 256 * b2 + 65536 * k); lia.
  - symmetry. apply Z.mod_unique with (b2 + 256 * k); lia.
  - symmetry. apply Z.mod_unique with k; lia.
Qed.

(** ** Float samples *)

Lemma load_float_eq x : is_f32 x -> x = 0 \/ 2 ^ 23 <= Z.abs x -> Z.abs x <= one ->
  load_float x = Some (sat16 (x * 2 ^ 15 ÷ one), Fin (x * 2 ^ 15)).
Proof.
  intros Hf Hn Hx. assert (Ho : 0 < one) by (rewrite one_pow; apply pow2_pos; lia).
  unfold load_float. rewrite ldexpf_up; [|exact Hf|exact Hn|lia|].
  2:{ assert (E : f32_lim = one * 2 ^ 128) by reflexivity. rewrite E.
      change (2 ^ 128) with (2 ^ 15 * 2 ^ 113). set (h := 2 ^ 113). assert (1 < h) by (vm_compute; reflexivity).
      clearbody h. nia. }
  cbn [to_int].
  assert (Hq : - 2 ^ 15 <= x * 2 ^ 15 ÷ one <= 2 ^ 15).
  { assert (Hb : Z.abs (x * 2 ^ 15) <= 2 ^ 15 * one) by (rewrite Z.abs_mul, (Z.abs_eq (2 ^ 15)); lia).
    assert (Ha : Z.abs (x * 2 ^ 15 ÷ one) <= 2 ^ 15).
    { rewrite <- Z.quot_abs by lia. rewrite (Z.abs_eq one) by lia. rewrite Z.quot_div_nonneg by lia.
      apply Z.div_le_upper_bound; lia. }
    lia. }
  rewrite cint_ok by (change (2 ^ 31) with (65536 * 2 ^ 15); lia).
  do 2 f_equal. unfold i16, sat16, clip. rewrite Z.mod_small; [lia|].
  change (2 ^ 16) with (2 * 2 ^ 15). lia.
Qed.

Lemma store_float_eq y : is_f32 (y * 2 ^ 15) -> y = 0 \/ 2 ^ 23 <= Z.abs y -> Z.abs (y * 2 ^ 15) < f32_lim ->
  store_float (y * 2 ^ 15) = Some (Fin (clip y (- one) one)).
Proof.
  intros Hf Hn Hl. unfold store_float. change (-15) with (- (15)).
  rewrite (ldexpf_down y 15) by (try assumption; lia). reflexivity.
Qed.

Lemma f32_scale x k : is_f32 x -> x = 0 \/ 2 ^ 23 <= Z.abs x -> 0 <= k -> is_f32 (x * 2 ^ k).
Proof.
  intros Hx [->|Ha] Hk; [reflexivity|]. destruct (f32_mant x Hx Ha) as (M & e & He & HM & E).
  assert (Es : x * 2 ^ k = Z.sgn x * M * 2 ^ (e + k)).
  { rewrite Z.pow_add_r, Z.mul_assoc by lia. f_equal. rewrite <- Z.mul_assoc, <- E.
    pose proof (Z.sgn_abs x). lia. }
  rewrite Es. apply f32_int; [lia|]. destruct (Z.sgn_spec x) as [(_ & ->)|[(_ & ->)|(_ & ->)]]; lia.
Qed.

(** ** Strided accesses *)

Lemma zlen_put_elems {A} (v : list A) : forall mem pos, zlen (put_elems mem pos v) = zlen mem.
Proof.
  induction v as [|b v IH]; intros mem pos; cbn [put_elems]; [reflexivity|].
  rewrite IH, zlen_upd. reflexivity.
Qed.
Lemma znth_put_out {A} (v : list A) d j : forall mem pos, j < pos \/ pos + zlen v <= j ->
  znth (put_elems mem pos v) j d = znth mem j d.
Proof.
  induction v as [|b v IH]; intros mem pos H; cbn [put_elems]; [reflexivity|].
  unfold zlen in *. cbn [length] in H. rewrite IH by lia. apply znth_upd_other. lia.
Qed.
Lemma znth_put_in {A} (v : list A) d b : forall mem pos, 0 <= pos -> pos + zlen v <= zlen mem ->
  0 <= b < zlen v -> znth (put_elems mem pos v) (pos + b) d = znth v b d.
Proof.
  revert b. induction v as [|a v IH]; intros b mem pos Hp Hl Hb; cbn [put_elems].
  - unfold zlen in Hb. cbn in Hb. lia.
  - assert (El : zlen (a :: v) = zlen v + 1) by (unfold zlen; cbn [length]; lia). rewrite El in *.
    destruct (Z.eq_dec b 0) as [->|Hn].
    + rewrite znth_put_out by lia. rewrite Z.add_0_r, znth_upd_same by lia. reflexivity.
    + replace (pos + b) with (pos + 1 + (b - 1)) by lia.
      rewrite IH by (rewrite ?zlen_upd; lia). rewrite znth_cons by lia. reflexivity.
Qed.

Section strided.
  Context {A : Type} (k : nat) (stride : Z).
  Hypothesis Hk : (0 < k)%nat.
  Hypothesis Hs : 0 < stride.

  (** Index of the element [b] of the sample [i]. *)
  Definition at_ (pos i b : Z) : Z := pos + Z.of_nat k * (stride * i) + b.

  Lemma put_samples_spec (d : A) (xs : list (list A)) : forall mem pos,
    0 <= pos -> Forall (fun v => zlen v = Z.of_nat k) xs ->
    (xs <> [] -> pos + Z.of_nat k * (stride * (zlen xs - 1) + 1) <= zlen mem) ->
    exists mem', put_samples k stride mem pos xs = Some mem' /\ zlen mem' = zlen mem /\
      (forall i b, 0 <= i < zlen xs -> 0 <= b < Z.of_nat k ->
         znth mem' (at_ pos i b) d = znth (znth xs i []) b d) /\
      (forall j, (forall i b, 0 <= i < zlen xs -> 0 <= b < Z.of_nat k -> j <> at_ pos i b) ->
         znth mem' j d = znth mem j d).
  Proof.
    induction xs as [|v xs IH]; intros mem pos Hp Hf Hl; cbn [put_samples].
    - exists mem. repeat split; intros; try reflexivity. unfold zlen in *. cbn in *. lia.
    - specialize (Hl ltac:(discriminate)). pose proof (Forall_inv Hf) as Hv. cbv beta in Hv.
      pose proof (Forall_inv_tail Hf) as Hft. pose proof (zlen_nonneg xs) as H0.
      assert (El : zlen (v :: xs) = zlen xs + 1) by (unfold zlen; cbn [length]; lia). rewrite El in *.
      set (K := Z.of_nat k) in *. assert (HK : 0 < K) by (unfold K; lia).
      assert (Hlast : K * (stride * (zlen xs + 1 - 1) + 1) >= K).
      { assert (0 <= stride * (zlen xs + 1 - 1)) by nia. nia. }
      replace ((0 <=? pos) && (pos + K <=? zlen mem)) with true by lia.
      destruct (IH (put_elems mem pos v) (pos + K * stride)) as (mem' & E & EL & Hin & Hout).
      + nia.
      + exact Hft.
      + intros Hne. rewrite zlen_put_elems. nia.
      + exists mem'. split; [exact E|]. split; [rewrite EL; apply zlen_put_elems|]. split.
        * intros i b Hi Hb. destruct (Z.eq_dec i 0) as [->|Hn].
          -- rewrite Hout.
             ++ unfold at_. rewrite Z.mul_0_r, Z.mul_0_r, Z.add_0_r.
                rewrite znth_put_in by lia. reflexivity.
             ++ intros i' b' Hi' Hb'. unfold at_. fold K. assert (1 <= stride * (i' + 1)) by nia. nia.
          -- rewrite (znth_cons v xs i) by lia.
             replace (at_ pos i b) with (at_ (pos + K * stride) (i - 1) b) by (unfold at_; fold K; ring).
             apply Hin; lia.
        * intros j Hj. rewrite Hout.
          -- apply znth_put_out. rewrite Hv.
             destruct (Z_lt_ge_dec j pos) as [?|Hge]; [left; lia|right].
             destruct (Z_le_gt_dec (pos + K) j) as [?|Hlt]; [lia|exfalso].
             apply (Hj 0 (j - pos)); [lia|lia|]. unfold at_. lia.
          -- intros i b Hi Hb. specialize (Hj (i + 1) b ltac:(lia) Hb).
             unfold at_ in *. fold K in Hj |- *. intros ->. apply Hj. ring.
  Qed.

  Lemma firstn_skipn_znth (mem : list A) p b d : 0 <= p -> p + Z.of_nat k <= zlen mem -> 0 <= b < Z.of_nat k ->
    znth (firstn k (skipn (Z.to_nat p) mem)) b d = znth mem (p + b) d.
  Proof.
    intros Hp Hl Hb. unfold znth. replace (b <? 0) with false by lia. replace (p + b <? 0) with false by lia.
    rewrite <- (firstn_skipn (Z.to_nat p) mem) at 2. unfold zlen in Hl.
    rewrite app_nth2; rewrite firstn_length_le by lia; [|lia].
    rewrite <- (firstn_skipn k (skipn (Z.to_nat p) mem)) at 2.
    rewrite app_nth1 by (rewrite firstn_length_le; rewrite ?skipn_length; lia).
    f_equal. lia.
  Qed.

  Lemma get_samples_spec (d : A) n : forall mem pos,
    0 <= pos -> ((0 < n)%nat -> pos + Z.of_nat k * (stride * (Z.of_nat n - 1) + 1) <= zlen mem) ->
    exists xs, get_samples k stride n mem pos = Some xs /\ length xs = n /\
      Forall (fun v => zlen v = Z.of_nat k) xs /\
      (forall i b, 0 <= i < Z.of_nat n -> 0 <= b < Z.of_nat k ->
         znth (znth xs i []) b d = znth mem (at_ pos i b) d).
  Proof.
    induction n as [|n IH]; intros mem pos Hp Hl; cbn [get_samples].
    - exists []. repeat split; auto. intros i b Hi. lia.
    - specialize (Hl ltac:(lia)). set (K := Z.of_nat k) in *. assert (HK : 0 < K) by (unfold K; lia).
      rewrite Nat2Z.inj_succ, <- Z.add_1_r in *. set (N := Z.of_nat n) in *. assert (HN : 0 <= N) by (unfold N; lia).
      assert (Hlast : K * (stride * (N + 1 - 1) + 1) >= K).
      { assert (0 <= stride * (N + 1 - 1)) by nia. nia. }
      replace ((0 <=? pos) && (pos + K <=? zlen mem)) with true by lia.
      destruct (IH mem (pos + K * stride)) as (xs & E & EL & Hf & Hin).
      + nia.
      + intros Hn. fold K N. nia.
      + rewrite E. cbn [option_map]. eexists. split; [reflexivity|]. split; [cbn [length]; lia|]. split.
        * apply Forall_cons; [|exact Hf]. unfold zlen in *. rewrite firstn_length_le; [reflexivity|].
          rewrite skipn_length. lia.
        * intros i b Hi Hb. destruct (Z.eq_dec i 0) as [->|Hn].
          -- rewrite znth_0, firstn_skipn_znth by (fold K; lia). unfold at_. fold K. f_equal. lia.
          -- rewrite znth_cons by lia. rewrite Hin by (fold N; lia).
             f_equal. unfold at_. fold K. ring.
  Qed.
End strided.

Lemma list_znth_eq {A} (d : A) (l m : list A) : zlen l = zlen m ->
  (forall i, 0 <= i < zlen l -> znth l i d = znth m i d) -> l = m.
Proof.
  intros HL H. unfold zlen in *. apply (nth_ext _ _ d d); [lia|].
  intros n Hn. specialize (H (Z.of_nat n) ltac:(lia)). unfold znth in H.
  replace (Z.of_nat n <? 0) with false in H by lia. rewrite !Nat2Z.id in H. exact H.
Qed.

(** The samples of the [c]-th of [nch] interleaved channels. *)
Lemma channel_disjoint k nch c c' i i' b b' : 0 < k -> 0 <= c < nch -> 0 <= c' < nch -> c <> c' ->
  0 <= b < k -> 0 <= b' < k -> c * k + k * (nch * i) + b <> c' * k + k * (nch * i') + b'.
Proof.
  intros Hk Hc Hc' Hne Hb Hb' E.
  assert (E1 : k * (c + nch * i) + b = k * (c' + nch * i') + b') by lia.
  assert (E2 : c + nch * i = c' + nch * i').
  { assert (Hd : forall q r, 0 <= r < k -> (k * q + r) / k = q).
    { intros q r Hr. symmetry. apply Z.div_unique with r; lia. }
    rewrite <- (Hd (c + nch * i) b Hb), <- (Hd (c' + nch * i') b' Hb'). congruence. }
  assert (Hd : forall q r, 0 <= r < nch -> (r + nch * q) mod nch = r).
  { intros q r Hr. symmetry. apply Z.mod_unique with q; lia. }
  apply Hne. rewrite <- (Hd i c Hc), <- (Hd i' c' Hc'). congruence.
Qed.
