(** * Properties of the rounding *)
From Coq Require Import ZArith Bool Lia ZifyBool.
From Verif Require Import Base BaseProofs FloatModel.
Local Open Scope Z_scope.

Lemma f_exp_nonneg a : 0 <= f_exp a.
Proof. unfold f_exp. lia. Qed.

Lemma rnd_pos_0 : rnd_pos 0 = 0.
Proof. reflexivity. Qed.

Lemma rnd_pos_mult a : exists q, rnd_pos a = q * 2 ^ f_exp a.
Proof. eexists. reflexivity. Qed.

(** Bounds by neighbours. *)
Lemma rnd_pos_near a : 0 <= a ->
  let e := f_exp a in a / 2 ^ e * 2 ^ e <= rnd_pos a <= (a / 2 ^ e + 1) * 2 ^ e.
Proof.
  intros Ha e. unfold rnd_pos. fold e. pose proof (pow2_pos e (f_exp_nonneg a)) as Hp.
  destruct (_ || _); nia.
Qed.

(** Exact on the multiples of 2^e not above 2^(e+24). *)
Lemma rnd_pos_exact a e : 0 <= e -> 0 <= a <= 2 ^ (e + 24) -> a mod 2 ^ e = 0 -> rnd_pos a = a.
Proof.
  intros He Ha Hm.
  destruct (Z.eq_dec a 0) as [->|Hz]; [reflexivity|].
  assert (Hx : exists e', e' = f_exp a /\ 0 <= e' /\ a mod 2 ^ e' = 0).
  { exists (f_exp a). split; [reflexivity|]. split; [apply f_exp_nonneg|].
    unfold f_exp. destruct (Z_le_gt_dec (Z.log2 a - 23) e) as [H|H].
    - set (f := Z.max 0 (Z.log2 a - 23)). assert (Hf : 0 <= f <= e) by lia.
      apply Z.mod_divide in Hm; [|pose proof (pow2_pos e); lia]. destruct Hm as (k & Hk).
      rewrite Hk. replace e with ((e - f) + f) by lia. rewrite Z.pow_add_r by lia.
      rewrite Z.mul_assoc. apply Z.mod_mul. pose proof (pow2_pos f); lia.
    - assert (E : a = 2 ^ (e + 24)).
      { destruct (Z.eq_dec a (2 ^ (e + 24))) as [|Hne]; [assumption|].
        assert (Z.log2 a < e + 24) by (apply Z.log2_lt_pow2; lia). lia. }
      rewrite E. rewrite Z.log2_pow2 by lia.
      replace (e + 24) with (23 + (e + 1)) at 1 by lia. rewrite Z.pow_add_r by lia.
      replace (Z.max 0 (e + 24 - 23)) with (e + 1) by lia.
      apply Z.mod_mul. pose proof (pow2_pos (e + 1)); lia. }
  destruct Hx as (e' & E & He' & Hm').
  unfold rnd_pos. rewrite <- E. rewrite Hm'. pose proof (pow2_pos e' He') as Hp.
  replace (2 * 0 <? 2 ^ e') with true by lia. cbn [orb].
  pose proof (Z.div_mod a (2 ^ e') ltac:(lia)). lia.
Qed.

Lemma pow2_cover a : 0 < a -> 2 ^ Z.log2 a <= a < 2 ^ (Z.log2 a + 1).
Proof. intros H. pose proof (Z.log2_spec a H). rewrite <- Z.add_1_r in H0. exact H0. Qed.

Lemma f_exp_pow a : 0 < a -> a < 2 ^ (f_exp a + 24).
Proof.
  intros H. pose proof (pow2_cover a H) as Hc. eapply Z.lt_le_trans; [apply Hc|].
  apply Z.pow_le_mono_r; [lia|]. unfold f_exp. lia.
Qed.

(** The result stays in the closed binade. *)
Lemma rnd_pos_upper a b : 0 <= a <= b -> rnd_pos b = b -> rnd_pos a <= b.
Proof.
  intros Hab Hb. destruct (Z.eq_dec a 0) as [->|Hz]; [rewrite rnd_pos_0; lia|].
  destruct (rnd_pos_near a ltac:(lia)) as (_ & Hu). set (e := f_exp a) in *.
  pose proof (pow2_pos e (f_exp_nonneg a)) as Hp.
  (* b is at least a multiple of 2^e above a, or a itself is exact *)
  destruct (Z.eq_dec a b) as [->|Hne]; [lia|].
  assert (Hbe : b mod 2 ^ e = 0 \/ a < 0).
  { left. assert (Hfe : e <= f_exp b).
    { unfold e, f_exp. pose proof (Z.log2_le_mono a b ltac:(lia)). lia. }
    destruct (rnd_pos_mult b) as (q & Hq). rewrite Hq in Hb.
    rewrite <- Hb. replace (f_exp b) with ((f_exp b - e) + e) by lia.
    rewrite Z.pow_add_r by (pose proof (f_exp_nonneg a); fold e in H; lia).
    rewrite Z.mul_assoc. apply Z.mod_mul. lia. }
  destruct Hbe as [Hbe|]; [|lia].
  pose proof (Z.div_mod b (2 ^ e) ltac:(lia)) as Eb. rewrite Hbe in Eb.
  pose proof (Z.div_mod a (2 ^ e) ltac:(lia)) as Ea.
  pose proof (Z.mod_pos_bound a (2 ^ e) ltac:(lia)) as Ra.
  destruct (Z.eq_dec (a mod 2 ^ e) 0) as [E0|E0].
  - assert (rnd_pos a = a).
    { apply (rnd_pos_exact a e); [apply f_exp_nonneg| |exact E0].
      pose proof (f_exp_pow a ltac:(lia)). fold e in H. lia. }
    lia.
  - assert (a / 2 ^ e < b / 2 ^ e) by nia. nia.
Qed.

Lemma rnd_pos_lower a b : 0 <= b <= a -> rnd_pos b = b -> b <= rnd_pos a.
Proof.
  intros Hab Hb. destruct (Z.eq_dec b 0) as [->|Hz].
  - unfold rnd_pos. set (e := f_exp a). pose proof (pow2_pos e (f_exp_nonneg a)).
    pose proof (Z.div_pos a (2 ^ e) ltac:(lia) ltac:(lia)). destruct (_ || _); nia.
  - destruct (rnd_pos_near a ltac:(lia)) as (Hl & _). set (e := f_exp a) in *.
    pose proof (pow2_pos e (f_exp_nonneg a)) as Hp.
    pose proof (Z.div_mod a (2 ^ e) ltac:(lia)) as Ea.
    pose proof (Z.mod_pos_bound a (2 ^ e) ltac:(lia)) as Ra.
    destruct (Z_le_gt_dec e (f_exp b)) as [Hfe|Hfe].
    + assert (Hbe : b mod 2 ^ e = 0).
      { destruct (rnd_pos_mult b) as (q & Hq). rewrite Hq in Hb.
        rewrite <- Hb. replace (f_exp b) with ((f_exp b - e) + e) by lia.
        rewrite Z.pow_add_r by (pose proof (f_exp_nonneg a); fold e in H; lia).
        rewrite Z.mul_assoc. apply Z.mod_mul. lia. }
      pose proof (Z.div_mod b (2 ^ e) ltac:(lia)) as Eb. rewrite Hbe in Eb.
      assert (b / 2 ^ e <= a / 2 ^ e) by (apply Z.div_le_mono; lia). nia.
    + (* b is in a lower binade: b < 2^(e+23) <= rnd a *)
      assert (Hb2 : b < 2 ^ (e + 23)).
      { unfold e, f_exp in *. apply Z.log2_lt_pow2; lia. }
      assert (Ha2 : 2 ^ (e + 23) <= a).
      { assert (e = Z.log2 a - 23) by (unfold e, f_exp in *; lia).
        replace (e + 23) with (Z.log2 a) by lia. apply pow2_cover. lia. }
      rewrite (Z.pow_add_r 2 e 23) in Hb2, Ha2 by (try apply f_exp_nonneg; lia).
      assert (2 ^ 23 <= a / 2 ^ e) by (apply Z.div_le_lower_bound; lia).
      nia.
Qed.

Lemma rnd_pos_idem a : 0 <= a -> rnd_pos (rnd_pos a) = rnd_pos a.
Proof.
  intros Ha. destruct (Z.eq_dec a 0) as [->|Hz]; [reflexivity|].
  pose proof (rnd_pos_near a Ha) as Hn. cbv zeta in Hn. set (e := f_exp a) in *.
  pose proof (pow2_pos e (f_exp_nonneg a)) as Hp.
  apply (rnd_pos_exact _ e); [apply f_exp_nonneg| |].
  - pose proof (Z.div_pos a (2 ^ e) ltac:(lia) ltac:(lia)).
    pose proof (f_exp_pow a ltac:(lia)) as Hu. fold e in Hu.
    rewrite Z.pow_add_r in * by (try apply f_exp_nonneg; lia).
    assert (a / 2 ^ e < 2 ^ 24) by (apply Z.div_lt_upper_bound; lia). nia.
  - unfold rnd_pos. fold e. apply Z.mod_mul. lia.
Qed.

Lemma rnd_pos_mono a b : 0 <= a <= b -> rnd_pos a <= rnd_pos b.
Proof.
  intros H. destruct (Z_le_gt_dec b (rnd_pos b)) as [Hb|Hb].
  - apply rnd_pos_upper; [lia|]. apply rnd_pos_idem. lia.
  - (* rnd b < b: same computation when the exponents agree *)
    destruct (Z_le_gt_dec (rnd_pos b) a) as [Ha|Ha].
    + (* rnd b <= a <= b *)
      destruct (Z.eq_dec a 0) as [->|Hz].
      { rewrite rnd_pos_0. apply rnd_pos_lower; [lia|reflexivity]. }
      assert (Hlow : rnd_pos b <= rnd_pos a).
      { apply rnd_pos_lower; [|apply rnd_pos_idem; lia]. split; [|exact Ha].
        apply rnd_pos_lower; [lia|reflexivity]. }
      assert (He : f_exp a = f_exp b).
      { unfold f_exp. pose proof (Z.log2_le_mono a b ltac:(lia)).
        destruct (Z.eq_dec (Z.log2 a) (Z.log2 b)) as [->|Hne]; [reflexivity|].
        destruct (Z_le_gt_dec (Z.log2 b) 23) as [|Hb23]; [lia|].
        exfalso. assert (2 ^ Z.log2 b <= rnd_pos b).
        { apply rnd_pos_lower; [pose proof (pow2_cover b ltac:(lia)); pose proof (pow2_pos (Z.log2 b)); lia|].
          apply (rnd_pos_exact _ (Z.log2 b - 23)); [lia| |].
          - split; [pose proof (pow2_pos (Z.log2 b)); lia|]. apply Z.pow_le_mono_r; lia.
          - replace (Z.log2 b) with (23 + (Z.log2 b - 23)) at 1 by lia. rewrite Z.pow_add_r by lia.
            apply Z.mod_mul. pose proof (pow2_pos (Z.log2 b - 23)). lia. }
        pose proof (Z.log2_le_mono (2 ^ Z.log2 b) a ltac:(lia)). rewrite Z.log2_pow2 in * by lia. lia. }
      unfold rnd_pos. rewrite He. set (e := f_exp b).
      pose proof (pow2_pos e (f_exp_nonneg b)) as Hp.
      pose proof (Z.div_mod a (2 ^ e) ltac:(lia)). pose proof (Z.mod_pos_bound a (2 ^ e) ltac:(lia)).
      pose proof (Z.div_mod b (2 ^ e) ltac:(lia)). pose proof (Z.mod_pos_bound b (2 ^ e) ltac:(lia)).
      assert (a / 2 ^ e <= b / 2 ^ e) by (apply Z.div_le_mono; lia).
      apply Z.mul_le_mono_nonneg_r; [lia|].
      destruct (Z.eq_dec (a / 2 ^ e) (b / 2 ^ e)) as [E|E].
      * rewrite E in *. assert (a mod 2 ^ e <= b mod 2 ^ e) by lia.
        destruct (2 * (a mod 2 ^ e) <? 2 ^ e) eqn:C1;
        destruct (2 * (b mod 2 ^ e) <? 2 ^ e) eqn:C2; cbn [orb]; try lia.
        -- destruct (_ && _); lia.
        -- destruct (2 * (a mod 2 ^ e) =? 2 ^ e) eqn:C3; destruct (2 * (b mod 2 ^ e) =? 2 ^ e) eqn:C4;
             cbn [andb]; try lia; destruct (Z.even _); lia.
      * destruct (_ || _), (_ || _); lia.
    + (* a < rnd b <= b *)
      apply rnd_pos_upper; [lia|]. apply rnd_pos_idem. lia.
Qed.

(** ** Signed numbers *)
Lemma rnd_pos_eq a : 0 <= a -> rnd a = rnd_pos a.
Proof.
  intros H. unfold rnd. destruct (Z.eq_dec a 0) as [->|]; [reflexivity|].
  rewrite Z.sgn_pos, Z.abs_eq by lia. lia.
Qed.
Lemma rnd_opp x : rnd (- x) = - rnd x.
Proof. unfold rnd. rewrite Z.sgn_opp, Z.abs_opp. lia. Qed.
Lemma rnd_0 : rnd 0 = 0.
Proof. reflexivity. Qed.
Lemma rnd_nonneg a : 0 <= a -> 0 <= rnd a.
Proof. intros H. rewrite rnd_pos_eq by assumption. apply rnd_pos_lower; [lia|reflexivity]. Qed.

Lemma rnd_mono x y : x <= y -> rnd x <= rnd y.
Proof.
  intros H. destruct (Z_le_gt_dec 0 x) as [Hx|Hx].
  - rewrite !rnd_pos_eq by lia. apply rnd_pos_mono. lia.
  - destruct (Z_le_gt_dec 0 y) as [Hy|Hy].
    + pose proof (rnd_nonneg y Hy). pose proof (rnd_nonneg (- x) ltac:(lia)). rewrite rnd_opp in *. lia.
    + pose proof (rnd_pos_mono (- y) (- x) ltac:(lia)) as Hm.
      rewrite <- !rnd_pos_eq, !rnd_opp in Hm by lia. lia.
Qed.

Lemma rnd_idem x : rnd (rnd x) = rnd x.
Proof.
  destruct (Z_le_gt_dec 0 x) as [Hx|Hx].
  - rewrite (rnd_pos_eq x) by assumption. rewrite rnd_pos_eq.
    + apply rnd_pos_idem. assumption.
    + apply rnd_pos_lower; [lia|reflexivity].
  - assert (H : rnd (rnd (- x)) = rnd (- x)).
    { rewrite (rnd_pos_eq (- x)) by lia. rewrite rnd_pos_eq.
      + apply rnd_pos_idem. lia.
      + apply rnd_pos_lower; [lia|reflexivity]. }
    rewrite !rnd_opp in H. lia.
Qed.

Lemma rnd_exact x e : 0 <= e -> Z.abs x <= 2 ^ (e + 24) -> x mod 2 ^ e = 0 -> rnd x = x.
Proof.
  intros He Hx Hm. unfold rnd. rewrite (rnd_pos_exact _ e); [lia|assumption|lia|].
  destruct (Z_le_gt_dec 0 x).
  - rewrite Z.abs_eq by lia. exact Hm.
  - rewrite Z.abs_neq by lia. apply Z.mod_opp_l_z; [pose proof (pow2_pos e); lia|exact Hm].
Qed.

(** A number of the format at least 2^k is a multiple of 2^(k-23). *)
Lemma f32_mult x k : is_f32 x -> 23 <= k -> 2 ^ k <= Z.abs x -> x mod 2 ^ (k - 23) = 0.
Proof.
  intros Hx Hk H. unfold is_f32, rnd in Hx.
  assert (He : k - 23 <= f_exp (Z.abs x)).
  { unfold f_exp. pose proof (Z.log2_le_mono _ _ H). rewrite Z.log2_pow2 in * by lia. lia. }
  destruct (rnd_pos_mult (Z.abs x)) as (q & Hq). rewrite Hq in Hx.
  rewrite <- Hx. set (e := f_exp (Z.abs x)) in *.
  replace e with ((e - (k - 23)) + (k - 23)) by lia. rewrite Z.pow_add_r by lia.
  rewrite !Z.mul_assoc. apply Z.mod_mul. pose proof (pow2_pos (k - 23)). lia.
Qed.
