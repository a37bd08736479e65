(** * Noise level of the encoder, rounding of quotients and products *)
From Coq Require Import ZArith List Bool Lia ZifyBool.
From Verif Require Import Base BaseProofs ConfigModel FloatModel FloatProofs SideModel FrameModel GainModel GainProofs NoiseModel NoiseSpec NoiseProofs.
Import ListNotations.
Local Open Scope Z_scope.

(** ** Rounding *)
Lemma f_exp_cases v : 0 <= v -> f_exp v = 0 \/ 0 < f_exp v /\ 2 ^ (f_exp v + 23) <= v.
Proof.
  intros H. unfold f_exp. destruct (Z_le_gt_dec (Z.log2 v - 23) 0) as [L|G]; [left; lia|right].
  split; [lia|]. rewrite Z.max_r by lia. replace (Z.log2 v - 23 + 23) with (Z.log2 v) by lia. apply Z.log2_spec. destruct (Z.eq_dec v 0) as [->|]; [cbn in G; lia|lia].
Qed.
Lemma quot_near a n : 0 <= a -> 0 < n -> 2 * Z.abs (rnd_quot a n * n - a) <= n * 2 ^ f_exp (a / n).
Proof.
  intros Ha Hn. unfold rnd_quot. set (e := f_exp (a / n)). pose proof (pow2_pos e (f_exp_nonneg _)) as P. set (p := 2 ^ e) in *. clearbody p. clear e.
  assert (Hm : 0 < n * p) by (apply Z.mul_pos_pos; lia). pose proof (Z.div_mod a (n * p) ltac:(lia)) as D. pose proof (Z.mod_pos_bound a (n * p) Hm) as B.
  set (q := a / (n * p)) in *. set (r := a mod (n * p)) in *. clearbody q r. 
  assert (E : forall t, t * p * n = n * p * t) by (intros; ring). set (np := n * p) in *. clearbody np.
  destruct (2 * r <? np) eqn:C1; cbn [orb]; [rewrite E; lia|]. destruct (2 * r =? np) eqn:C2; cbn [andb]; [destruct (Z.even q)|]; rewrite E; lia.
Qed.
Lemma quot_err a n V : 0 <= a -> 0 < n -> a <= n * V -> 2 ^ 23 <= V -> Z.abs (rnd_quot a n * n - a) * 2 ^ 24 <= n * V.
Proof.
  intros Ha Hn HV H. pose proof (quot_near a n Ha Hn) as N. pose proof (Z.div_pos a n Ha Hn) as Q. pose proof (Z.mul_div_le a n Hn) as M.
  destruct (f_exp_cases (a / n) Q) as [E|[E1 E]].
  - rewrite E in N. change (2 ^ 0) with 1 in N. assert (n * 2 ^ 23 <= n * V) by (apply Z.mul_le_mono_nonneg_l; lia). lia.
  - rewrite Z.pow_add_r in E by lia. assert (n * (2 ^ f_exp (a / n) * 2 ^ 23) <= n * (a / n)) by (apply Z.mul_le_mono_nonneg_l; lia). lia.
Qed.
Lemma rnd_quot_1 a : rnd_pos a = rnd_quot a 1.
Proof. unfold rnd_pos, rnd_quot. rewrite Z.div_1_r. cbv zeta. rewrite !Z.mul_1_l. reflexivity. Qed.
Lemma rnd_err a V : 0 <= a <= V -> 2 ^ 23 <= V -> Z.abs (rnd a - a) * 2 ^ 24 <= V.
Proof. intros H HV. rewrite rnd_pos_eq by lia. rewrite rnd_quot_1. pose proof (quot_err a 1 V ltac:(lia) ltac:(lia) ltac:(lia) HV). lia. Qed.
Lemma quot_nonneg a n : 0 <= a -> 0 < n -> 0 <= rnd_quot a n.
Proof.
  intros Ha Hn. unfold rnd_quot. pose proof (pow2_pos (f_exp (a / n)) (f_exp_nonneg _)) as P. set (p := 2 ^ f_exp (a / n)) in *. clearbody p.
  assert (0 <= a / (n * p)) by (apply Z.div_pos; [lia|apply Z.mul_pos_pos; lia]). apply Z.mul_nonneg_nonneg; [|lia]. destruct (_ || _); lia.
Qed.
Lemma quot_pos a n : 0 < n -> n <= a -> 0 < rnd_quot a n.
Proof.
  intros Hn Ha. unfold rnd_quot. assert (V : 1 <= a / n) by (apply Z.div_le_lower_bound; lia).
  pose proof (pow2_pos (f_exp (a / n)) (f_exp_nonneg _)) as P.
  assert (L : 2 ^ f_exp (a / n) <= a / n).
  { destruct (f_exp_cases (a / n) ltac:(lia)) as [E|[E1 E]]; [rewrite E; cbn; lia|]. rewrite Z.pow_add_r in E by lia. lia. }
  set (p := 2 ^ f_exp (a / n)) in *. clearbody p. pose proof (Z.mul_div_le a n Hn) as M.
  assert (1 <= a / (n * p)). { apply Z.div_le_lower_bound; [apply Z.mul_pos_pos; lia|]. assert (n * p <= n * (a / n)) by (apply Z.mul_le_mono_nonneg_l; lia). lia. }
  apply Z.mul_pos_pos; [|lia]. destruct (_ || _); lia.
Qed.

(** The product with a gain of 2^-32 at least keeps the sign of a coefficient. *)
Lemma fmul_sgn a g : a = 0 \/ one <= 8 * Z.abs a -> one <= 2 ^ 32 * g -> Z.sgn (fmul a g) = Z.sgn a.
Proof.
  intros Ha Hg. unfold fmul. assert (P : 0 < one) by reflexivity. assert (G : 0 < g) by lia. rewrite (Z.sgn_pos g G), Z.mul_1_r. destruct Ha as [->|Ha]; [reflexivity|].
  assert (Q : 0 < rnd_quot (Z.abs a * Z.abs g) one).
  { apply quot_pos; [exact P|]. rewrite (Z.abs_eq g) by lia. assert (one * one <= (8 * Z.abs a) * (2 ^ 32 * g)) by (apply Z.mul_le_mono_nonneg; lia).
    assert (O : one * one = one * 2 ^ 149) by reflexivity. assert (one * 2 ^ 35 <= one * 2 ^ 149) by (apply Z.mul_le_mono_nonneg_l; [lia|apply Z.pow_le_mono_r; lia]). change (2 ^ 35) with (8 * 2 ^ 32) in *. lia. }
  rewrite Z.sgn_mul, (Z.sgn_pos _ Q), Z.sgn_sgn. lia.
Qed.
Lemma fmul_zero g : fmul 0 g = 0.
Proof. reflexivity. Qed.

(** ** The sum of the holes *)
Definition abs_at (x : list Z) (k : Z) : Z := Z.abs (znth x k 0).
Definition round_sum (x : list Z) (l : list Z) : Z := fold_left (fun s k => rnd (s + abs_at x k)) l 0.
Definition total (x : list Z) (l : list Z) : Z := fold_right Z.add 0 (map (abs_at x) l).

Lemma total_app x a b : total x (a ++ b) = total x a + total x b.
Proof. unfold total. rewrite map_app. induction (map (abs_at x) a) as [|y r IH]; cbn [app fold_right]; lia. Qed.
Lemma round_sum_err x B l : 2 ^ 23 <= B -> zlen l < 2 ^ 20 -> (forall k, In k l -> abs_at x k <= B) ->
  0 <= round_sum x l /\ 0 <= total x l <= zlen l * B /\ Z.abs (round_sum x l - total x l) * 2 ^ 24 <= zlen l * (zlen l + 1) * B.
Proof.
  intros HB. induction l as [|k l IH] using rev_ind; intros Hl Hk.
  - cbn. lia.
  - rewrite zlen_app, zlen_cons, zlen_nil in *. destruct IH as (I0 & I1 & I2); [lia|intros; apply Hk, in_or_app; left; assumption|].
    specialize (Hk k ltac:(apply in_or_app; right; left; reflexivity)). unfold round_sum in *. rewrite fold_left_app. cbn [fold_left]. rewrite total_app. 
    replace (total x [k]) with (abs_at x k) by (unfold total; cbn [map fold_right]; lia). set (s := fold_left _ l 0) in *. set (T := total x l) in *. set (n := zlen l) in *. set (u := abs_at x k) in *.
    assert (Hu : 0 <= u) by (unfold u, abs_at; lia). pose proof (zlen_nonneg l) as Hn. fold n in Hn. clearbody s T n u.
    assert (n * (n + 1) * B <= 2 ^ 24 * ((n + 1) * B)). { replace (n * (n + 1) * B) with (n * ((n + 1) * B)) by ring. apply Z.mul_le_mono_nonneg_r; [apply Z.mul_nonneg_nonneg; lia|lia]. }
    assert (S1 : s + u <= 2 * ((n + 1) * B)) by lia.
    assert (S2 : 2 ^ 23 <= 2 * ((n + 1) * B)) by lia.
    pose proof (rnd_err (s + u) (2 * ((n + 1) * B)) ltac:(lia) S2) as R. pose proof (rnd_nonneg (s + u) ltac:(lia)).
    change (@zlen Z []) with 0. split; [assumption|]. split; [lia|]. replace ((n + (1 + 0)) * (n + (1 + 0) + 1) * B) with (n * (n + 1) * B + 2 * ((n + 1) * B)) by ring. lia.
Qed.

(** ** The loops *)
Section Estimate.
Variables (dt bw n lim : Z) (x : list Z).
Hypothesis Hd : 0 <= dt <= 3.
Hypothesis Hb : 0 <= bw.
Hypothesis Hn : 0 <= n.
Hypothesis Hlen : band_lines dt bw <= zlen x.
Let w := distance dt.
Let first := first_line dt.
Let stop := band_lines dt bw.
Definition low_at (lim : Z) (x : list Z) (j : Z) : bool := Z.abs (znth x j 0) <? lim.
Let null := low_at lim x.

Definition est_inv (i z sum ns : Z) : Prop :=
  run dt bw n null i z /\ sum = round_sum x (holes dt bw n null (i - w)) /\ ns = zlen (holes dt bw n null (i - w)).

Lemma est_add_ok i z sum ns : est_inv i z sum ns -> first - w <= i < stop + w ->
  let z' := if nul dt bw n null i then z + 1 else 0 in
  exists sum' ns', est_add w x i z' sum ns = Some (sum', ns') /\ est_inv (i + 1) z' sum' ns'.
Proof.
  intros (R & Es & En) Hi z'. pose proof (run_next dt bw n null i z R ltac:(apply Hi)) as R'. fold z' in R'. clearbody z'.
  pose proof (run_hole dt bw n null i z' R' ltac:(apply Hi) ltac:(apply Hi)) as H. fold w in H. unfold est_add. rewrite H.
  pose proof (holes_next dt bw n null i ltac:(apply Hi) ltac:(apply Hi)) as HN. fold w in HN.
  destruct (hole dt bw n null (i - w)) eqn:Q.
  - pose proof (hole_range dt bw n null _ Q) as RQ. fold first stop in RQ. pose proof Hlen as HL. fold stop in HL. pose proof (proj2 (first_eq dt Hd)) as W2. fold w first in W2.
    pose proof (proj2 (width_eq dt Hd)) as W. fold w in W.
    unfold read, inb. replace ((0 <=? i - w) && (i - w <? zlen x)) with true by lia. cbn [bind]. eexists _, _. split; [reflexivity|]. split; [exact R'|].
    rewrite HN. split; [unfold round_sum; rewrite fold_left_app; cbn [fold_left]; subst sum; reflexivity|rewrite zlen_app, zlen_cons, zlen_nil; lia].
  - eexists _, _. split; [reflexivity|]. split; [exact R'|]. rewrite HN, app_nil_r. split; assumption.
Qed.
Lemma est_first_ok k : forall i z sum ns, est_inv i z sum ns -> first - w <= i -> i + Z.of_nat k <= Z.min n stop ->
  exists z' sum' ns', est_first k w lim x i z sum ns = Some (i + Z.of_nat k, z', sum', ns') /\ est_inv (i + Z.of_nat k) z' sum' ns'.
Proof.
  pose proof (proj2 (width_eq dt Hd)) as W. fold w in W. pose proof (proj2 (first_eq dt Hd)) as W2. fold w first in W2. pose proof Hlen as HL. fold stop in HL.
  induction k as [|k IH]; intros i z sum ns Inv Hi Hk; cbn [est_first].
  - replace (i + Z.of_nat 0) with i by lia. eauto 6.
  - unfold read, inb. replace ((0 <=? i) && (i <? zlen x)) with true by lia. cbn [bind]. change (Z.abs (znth x i 0) <? lim) with (null i).
    destruct (est_add_ok i z sum ns Inv ltac:(lia)) as (sum' & ns' & E & Inv'). rewrite nul_under in E, Inv' by (fold stop; lia). rewrite E. cbn [bind fst snd].
    destruct (IH (i + 1) _ sum' ns' Inv' ltac:(lia) ltac:(lia)) as (z2 & s2 & n2 & E2 & I2).
    exists z2, s2, n2. replace (i + Z.of_nat (S k)) with (i + 1 + Z.of_nat k) by lia. split; assumption.
Qed.
Lemma est_second_ok k : forall i z sum ns, est_inv i z sum ns -> first - w <= i -> Z.min n stop <= i -> i + Z.of_nat k = stop + w ->
  est_second k w x i z sum ns = Some (round_sum x (holes dt bw n null stop), zlen (holes dt bw n null stop)).
Proof.
  induction k as [|k IH]; intros i z sum ns Inv Hi Hm Hk; cbn [est_second].
  - destruct Inv as (_ & -> & ->). replace (i - w) with stop by lia. reflexivity.
  - destruct (est_add_ok i z sum ns Inv ltac:(lia)) as (sum' & ns' & E & Inv'). rewrite nul_over in E, Inv' by exact Hm. rewrite E. cbn [bind fst snd].
    apply (IH (i + 1) _ sum' ns' Inv'); lia.
Qed.
End Estimate.

Definition nf_lim (hr : bool) : Z := if hr then one / 2 else 10 * one / 16.
(** The level, from the sum and the count. *)
Definition level (sum ns : Z) : Z := rnd (rnd_quot (16 * sum) ns + one / 2) / one.

Lemma level_ok x B l : 2 ^ 24 <= B <= 2 ^ 23 * one -> 0 < zlen l <= 400 -> (forall k, In k l -> abs_at x k <= B) ->
  let c := level (round_sum x l) (zlen l) in
  0 <= c < 2 ^ 31 /\ Z.abs (c * (zlen l * one) - 16 * total x l) * 2 ^ 24 <= zlen l * (2 ^ 23 * one + one + 6600 * B).
Proof.
  intros HB Hl Hk c. destruct (round_sum_err x B l ltac:(lia) ltac:(lia) Hk) as (S0 & T & E).
  unfold c, level. clear c. set (s := round_sum x l) in *. set (ns := zlen l) in *. set (T0 := total x l) in *. clearbody s ns T0. clear Hk l x.
  assert (N1 : ns * (ns + 1) * B <= 401 * (ns * B)). { replace (ns * (ns + 1) * B) with ((ns + 1) * (ns * B)) by ring. apply Z.mul_le_mono_nonneg_r; [apply Z.mul_nonneg_nonneg; lia|lia]. }
  assert (N0 : 0 <= ns * B) by (apply Z.mul_nonneg_nonneg; lia).
  assert (S1 : 16 * s <= ns * (17 * B)) by lia.
  pose proof (quot_err (16 * s) ns (17 * B) ltac:(lia) ltac:(lia) S1 ltac:(lia)) as E1. pose proof (quot_nonneg (16 * s) ns ltac:(lia) ltac:(lia)) as Q0. set (t := rnd_quot (16 * s) ns) in *. clearbody t.
  assert (Ht : t <= 18 * B). { assert (t * ns <= (18 * B) * ns) by lia. apply (Z.mul_le_mono_pos_r t (18 * B) ns); lia. }
  assert (O2 : one = 2 * (one / 2)) by reflexivity. assert (OP : 0 < one) by reflexivity.
  set (h := one / 2) in *. set (o := one) in *. assert (OB : 2 ^ 24 <= o) by (unfold o, one; apply Z.pow_le_mono_r; lia). clearbody o h.
  pose proof (rnd_err (t + h) (18 * B + o) ltac:(lia) ltac:(lia)) as E2. pose proof (rnd_nonneg (t + h) ltac:(lia)) as R0. set (r := rnd (t + h)) in *. clearbody r.
  pose proof (Z.div_mod r o ltac:(lia)) as D. pose proof (Z.mod_pos_bound r o OP) as M. pose proof (Z.div_pos r o R0 OP) as C0. set (c := r / o) in *. set (m := r mod o) in *. clearbody c m.
  split.
  - split; [lia|]. assert (o * c < o * 2 ^ 31) by lia. apply (Z.mul_lt_mono_pos_l o); lia.
  - assert (A1 : Z.abs (c * o - t) * 2 ^ 24 <= 2 ^ 24 * h + (18 * B + o)) by lia.
    assert (A2 : Z.abs (c * (ns * o) - t * ns) * 2 ^ 24 <= ns * (2 ^ 24 * h + (18 * B + o))).
    { replace (c * (ns * o) - t * ns) with ((c * o - t) * ns) by ring. rewrite Z.abs_mul, (Z.abs_eq ns) by lia. replace (Z.abs (c * o - t) * ns * 2 ^ 24) with (ns * (Z.abs (c * o - t) * 2 ^ 24)) by ring.
      apply Z.mul_le_mono_nonneg_l; lia. }
    set (a := c * (ns * o)) in *. set (b := t * ns) in *. clearbody a b.
    replace (ns * (2 ^ 23 * o + o + 6600 * B)) with (ns * (2 ^ 24 * h + (18 * B + o)) + 6582 * (ns * B)) by (rewrite O2; ring). lia.
Qed.

Lemma holes_len dt bw n null : 0 <= dt <= 3 -> 0 <= bw -> zlen (holes dt bw n null (band_lines dt bw)) <= 400.
Proof.
  intros Hd Hb. unfold holes. assert (A : forall l : list Z, zlen (filter (hole dt bw n null) l) <= zlen l).
  { intros l. induction l as [|k l IH]; cbn [filter]; [lia|]. destruct (hole dt bw n null k); rewrite ?zlen_cons; lia. }
  eapply Z.le_trans; [apply A|]. unfold lines. rewrite zlen_map. unfold zlen. rewrite seq_length. pose proof (band_range dt bw Hd Hb). pose proof (first_eq dt Hd). lia.
Qed.

Lemma estimate_ok dt bw hr x n : 0 <= dt <= 3 -> 0 <= bw -> 0 <= n -> band_lines dt bw <= zlen x ->
  (forall k, 0 <= k < band_lines dt bw -> abs_at x k <= 2 ^ 23 * one) ->
  let l := holes dt bw n (low_at (nf_lim hr) x) (band_lines dt bw) in
  estimate_noise dt bw hr x n = Some (if zlen l =? 0 then 7 else clip (8 - level (round_sum x l) (zlen l)) 0 7).
Proof.
  intros Hd Hb Hn Hl Hx l. unfold estimate_noise. pose proof (width_eq dt Hd) as [W1 W2]. pose proof (first_eq dt Hd) as [F1 F2]. unfold nf_start. rewrite W1, stop_eq, <- F1 by exact Hb.
  fold (nf_lim hr). pose proof (band_range dt bw Hd Hb) as BR.
  assert (I0 : est_inv dt bw n (nf_lim hr) x (first_line dt - distance dt) 0 0 0).
  { split; [apply run_start|]. rewrite holes_start by exact Hd. split; reflexivity. }
  assert (H : exists i z sum ns, est_first (Z.to_nat (Z.min n (band_lines dt bw) - (first_line dt - distance dt))) (distance dt) (nf_lim hr) x (first_line dt - distance dt) 0 0 0 = Some (i, z, sum, ns) /\
     est_inv dt bw n (nf_lim hr) x i z sum ns /\ i = Z.max (first_line dt - distance dt) (Z.min n (band_lines dt bw))).
  { destruct (Z_le_gt_dec (first_line dt - distance dt) (Z.min n (band_lines dt bw))) as [L|G].
    - destruct (est_first_ok dt bw n (nf_lim hr) x Hd Hl (Z.to_nat (Z.min n (band_lines dt bw) - (first_line dt - distance dt))) (first_line dt - distance dt) 0 0 0 I0 ltac:(lia) ltac:(lia)) as (z & s & ns & E & I).
      exists (first_line dt - distance dt + Z.of_nat (Z.to_nat (Z.min n (band_lines dt bw) - (first_line dt - distance dt)))), z, s, ns. split; [exact E|]. split; [exact I|lia].
    - replace (Z.to_nat (Z.min n (band_lines dt bw) - (first_line dt - distance dt))) with O by lia. cbn [est_first]. exists (first_line dt - distance dt), 0, 0, 0. split; [reflexivity|]. split; [exact I0|lia]. }
  destruct H as (i & z1 & s1 & n1 & E & I1 & Ei). rewrite E. cbn [bind].
  rewrite (est_second_ok dt bw n (nf_lim hr) x Hd Hl (Z.to_nat (band_lines dt bw + distance dt - i)) i z1 s1 n1 I1) by lia. cbn [bind]. fold l.
  assert (LL : zlen l <= 400) by (apply holes_len; assumption). pose proof (zlen_nonneg l) as L0.
  destruct (zlen l =? 0) eqn:Z0; [reflexivity|].
  destruct (level_ok x (2 ^ 23 * one) l) as [R _].
  - split; [|lia]. unfold one. rewrite <- Z.pow_add_r by lia. apply Z.pow_le_mono_r; lia.
  - lia.
  - intros k Hk. apply Hx. apply holes_in in Hk. destruct Hk as [Hk Q]. apply hole_range in Q. lia.
  - unfold level in R |- *. rewrite cint_some by (unfold is_int, INT_MIN, INT_MAX; lia). cbn [bind]. rewrite cint_some by (unfold is_int, INT_MIN, INT_MAX; lia). reflexivity.
Qed.
