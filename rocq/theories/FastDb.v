(** * lc3_db_q16, from the square of a binary32 number *)
From Coq Require Import Reals ZArith List Bool Lia Lra Psatz.
From Flocq Require Import Core.Core IEEE754.BinarySingleNaN Relative.
From Verif Require Import Base FloatOps FloatLaws F32Model F32Proofs GainModel GainProofs SpecEncModel SpecEncFloat FastReal FastFloat.
Import ListNotations.
Local Open Scope R_scope.

(** ** The nodes of the table *)
Definition db_g (h : Z) : Z := ((h / 16) * 49321 + fst (znth db_table h (0, 0)))%Z.
Definition db_b (h : Z) : Z := snd (znth db_table h (0, 0)%Z).
Definition l10_lo : Z := (3 * ln2_lo + ln1u25_lo)%Z.
Definition l10_hi : Z := (3 * ln2_hi + ln1u25_hi)%Z.
Definition near_node (g lo hi : Z) : bool :=
  ((((g - 2) * l10_lo <=? 327680 * lo) && ((g - 2) * l10_hi <=? 327680 * lo)) && (327680 * hi <=? (g + 2) * l10_lo))%Z.
Definition db_test (n lo hi : Z) : bool :=
  if (n mod 32 =? 0)%Z then
    let j := (n / 32 - 32)%Z in
    ((31 <? j)%Z || near_node (db_g j) lo hi) && ((j <? 1)%Z || near_node (db_g (j - 1) + db_b (j - 1)) lo hi)
  else true.
Lemma db_check : ln_nodes 1025 1024 0 0 db_test = true.
Proof. vm_compute. reflexivity. Qed.
Lemma near_node_ok g lo hi X : (-2 <= g)%Z -> near_node g lo hi = true -> IZR lo <= c60 * X <= IZR hi -> Rabs (IZR g * ln 10 - 327680 * X) <= 2 * ln 10.
Proof.
  intros Hg H (B1 & B2). unfold near_node in H. apply andb_prop in H. destruct H as (H & H3). apply andb_prop in H. destruct H as (H1 & H2). apply Z.leb_le, IZR_le in H1, H2, H3.
  rewrite !mult_IZR, minus_IZR in H1, H2. rewrite !mult_IZR, plus_IZR in H3. pose proof ln10_bounds as (L & U). fold l10_lo l10_hi in L, U. pose proof c60_pos as C. assert (Hg2 : -2 <= IZR g) by (apply IZR_le; exact Hg).
  set (a := IZR l10_lo) in *. set (b := IZR l10_hi) in *. clearbody a b. set (l := ln 10) in *. clearbody l. set (G := IZR g) in *. clearbody G.
  assert (K1 : (G - 2) * (c60 * l) <= 327680 * (c60 * X)).
  { destruct (Rle_lt_dec 2 G) as [D|D].
    - apply Rle_trans with ((G - 2) * b); [apply Rmult_le_compat_l; lra|lra].
    - apply Rle_trans with ((G - 2) * a); [|lra]. assert ((2 - G) * a <= (2 - G) * (c60 * l)) by (apply Rmult_le_compat_l; lra). lra. }
  assert (K2 : 327680 * (c60 * X) <= (G + 2) * (c60 * l)). { apply Rle_trans with ((G + 2) * a); [lra|apply Rmult_le_compat_l; lra]. }
  apply Rabs_le. split; apply Rmult_le_reg_l with c60; try exact C; lra.
Qed.
Lemma db_node j : (0 <= j < 32)%Z -> Rabs (IZR (db_g j) * ln 10 - 327680 * ln (IZR (32 + j) / 32)) <= 2 * ln 10 /\
  Rabs (IZR (db_g j + db_b j) * ln 10 - 327680 * ln (IZR (32 + (j + 1)) / 32)) <= 2 * ln 10.
Proof.
  intros H. destruct (db_tab_at j H) as (Ta & Tb & _).
  assert (G0 : (0 <= db_g j)%Z). { unfold db_g. assert (0 <= j / 16)%Z by (apply Z.div_pos; lia). lia. }
  assert (N : forall k, (0 <= k <= 32)%Z -> exists lo hi, db_test (32 * (32 + k)) lo hi = true /\ IZR lo <= c60 * ln (IZR (32 + k) / 32) <= IZR hi).
  { intros k Hk. destruct (ln_nodes_ok _ _ _ _ _ db_check ltac:(lia) ln_start (32 * (32 + k))%Z ltac:(lia)) as (lo & hi & T & B). exists lo, hi. split; [exact T|].
    replace (IZR (32 * (32 + k)) / 1024) with (IZR (32 + k) / 32) in B by (rewrite mult_IZR; field). exact B. }
  assert (T : forall k lo hi, db_test (32 * (32 + k)) lo hi = true -> ((31 <? k)%Z || near_node (db_g k) lo hi) && ((k <? 1)%Z || near_node (db_g (k - 1) + db_b (k - 1)) lo hi) = true).
  { intros k lo hi. unfold db_test. rewrite (Z.mul_comm 32 (32 + k)), Z.mod_mul, Z.div_mul by lia. replace (32 + k - 32)%Z with k by lia. cbn [Z.eqb]. intros Q; exact Q. }
  split.
  - destruct (N j ltac:(lia)) as (lo & hi & D & B). apply T, andb_prop in D. destruct D as (D & _). apply orb_prop in D. destruct D as [D|D]; [lia|]. exact (near_node_ok (db_g j) _ _ _ ltac:(lia) D B).
  - destruct (N (j + 1)%Z ltac:(lia)) as (lo & hi & D & B). apply T, andb_prop in D. destruct D as (_ & D). apply orb_prop in D. destruct D as [D|D]; [lia|]. replace (j + 1 - 1)%Z with j in D by lia. apply (near_node_ok (db_g j + db_b j) _ _ _ ltac:(unfold db_b; lia) D B).
Qed.

(** ** The value, from the exponent and the fraction *)
Lemma db_shape E f : (0 <= E)%Z -> (0 <= f < 2 ^ 23)%Z ->
  db_value (E * 2 ^ 23 + f) = ((2 * E - 254) * 49321 + db_g (f / 2 ^ 18) + (db_b (f / 2 ^ 18) * ((f mod 2 ^ 18) / 4)) / 2 ^ 16)%Z.
Proof.
  intros HE Hf. unfold db_value. cbv zeta.
  replace ((E * 2 ^ 23 + f) / 4)%Z with (f / 4 + (32 * E) * 2 ^ 16)%Z by (replace (E * 2 ^ 23 + f)%Z with (f + E * 2 ^ 21 * 4)%Z by lia; rewrite Z.div_add by lia; lia).
  rewrite Z.div_add, Z.mod_add by lia. rewrite Z.div_div by lia. change (4 * 2 ^ 16)%Z with (2 ^ 18)%Z.
  replace ((f / 4) mod 2 ^ 16)%Z with ((f mod 2 ^ 18) / 4)%Z by (clear; change (2 ^ 18)%Z with 262144%Z; change (2 ^ 16)%Z with 65536%Z; Z.div_mod_to_equations; lia).
  assert (Hh : (0 <= f / 2 ^ 18 < 32)%Z) by (split; [apply Z.div_pos; lia|apply Z.div_lt_upper_bound; lia]). set (h := (f / 2 ^ 18)%Z) in *. clearbody h.
  unfold db_base, db_slope. replace (h + 32 * E)%Z with (h + E * 32)%Z by lia. rewrite Z.mod_add, (Z.mod_small h 32) by lia. replace (h + E * 32)%Z with (h + 2 * E * 16)%Z by lia. rewrite Z.div_add by lia.
  unfold db_g, db_b. lia.
Qed.
(** The chord of the logarithm. *)
Lemma chord t th : 0 <= t <= / 32 -> 0 <= th <= 1 -> Rabs (ln (1 + th * t) - th * ln (1 + t)) <= 0.000133.
Proof.
  intros Ht Hth. assert (P : 0 <= th * t) by (apply Rmult_le_pos; lra). pose proof (ln1p_lo _ P) as A1. pose proof (ln1p_hi _ P) as A2. pose proof (ln1p_lo t ltac:(lra)) as A3. pose proof (ln1p_hi t ltac:(lra)) as A4.
  assert (Q2 : 0 <= t ^ 2 <= / 1024) by nra. assert (Q3 : 0 <= t ^ 3 <= / 32768) by (replace (t ^ 3) with (t * t ^ 2) by ring; nra). assert (Q4 : 0 <= t ^ 4 <= / 1048576) by (replace (t ^ 4) with (t ^ 2 * t ^ 2) by ring; nra). assert (Q5 : 0 <= t ^ 5 <= / 33554432) by (replace (t ^ 5) with (t * t ^ 4) by ring; nra).
  assert (T2 : 0 <= th ^ 2 <= 1) by nra. assert (T3 : 0 <= th ^ 3 <= 1) by (replace (th ^ 3) with (th * th ^ 2) by ring; nra). assert (T4 : 0 <= th ^ 4 <= 1) by (replace (th ^ 4) with (th ^ 2 * th ^ 2) by ring; nra). assert (T5 : 0 <= th ^ 5 <= 1) by (replace (th ^ 5) with (th * th ^ 4) by ring; nra).
  rewrite !Rpow_mult_distr in A1, A2. assert (V : 0 <= th - th ^ 2 <= / 4). { pose proof (Rle_0_sqr (th - / 2)) as SQ. unfold Rsqr in SQ. assert (0 <= th * (1 - th)) by (apply Rmult_le_pos; lra). lra. }
  assert (M2 : 0 <= (th - th ^ 2) * t ^ 2 <= / 4 * / 1024) by (split; [apply Rmult_le_pos; lra|apply Rmult_le_compat; lra]).
  assert (M3 : 0 <= th ^ 3 * t ^ 3 <= / 32768) by (split; [apply Rmult_le_pos; lra|rewrite <- (Rmult_1_l (/ 32768)); apply Rmult_le_compat; lra]). assert (M4 : 0 <= th ^ 4 * t ^ 4 <= / 1048576) by (split; [apply Rmult_le_pos; lra|rewrite <- (Rmult_1_l (/ 1048576)); apply Rmult_le_compat; lra]).
  assert (M5 : 0 <= th ^ 5 * t ^ 5 <= / 33554432) by (split; [apply Rmult_le_pos; lra|rewrite <- (Rmult_1_l (/ 33554432)); apply Rmult_le_compat; lra]).
  assert (N3 : 0 <= th * t ^ 3 <= / 32768) by (split; [apply Rmult_le_pos; lra|rewrite <- (Rmult_1_l (/ 32768)); apply Rmult_le_compat; lra]). assert (N4 : 0 <= th * t ^ 4 <= / 1048576) by (split; [apply Rmult_le_pos; lra|rewrite <- (Rmult_1_l (/ 1048576)); apply Rmult_le_compat; lra]).
  assert (N5 : 0 <= th * t ^ 5 <= / 33554432) by (split; [apply Rmult_le_pos; lra|rewrite <- (Rmult_1_l (/ 33554432)); apply Rmult_le_compat; lra]).
  assert (B3 : th * (t - t ^ 2 / 2 + t ^ 3 / 3 - t ^ 4 / 4) <= th * ln (1 + t)) by (apply Rmult_le_compat_l; lra). assert (B4 : th * ln (1 + t) <= th * (t - t ^ 2 / 2 + t ^ 3 / 3 - t ^ 4 / 4 + t ^ 5 / 5)) by (apply Rmult_le_compat_l; lra).
  apply Rabs_le. split; lra.
Qed.

Lemma db_near E f : (1 <= E <= 253)%Z -> (0 <= f < 2 ^ 23)%Z ->
  Rabs (IZR (db_value (E * 2 ^ 23 + f)) * ln 10 - 327680 * ln ((1 + IZR f / 2 ^ 23) * p2 (E - 127))) <= 85 * ln 10.
Proof.
  intros HE Hf. rewrite db_shape by lia. assert (Hh : (0 <= f / 2 ^ 18 < 32)%Z) by (split; [apply Z.div_pos; lia|apply Z.div_lt_upper_bound; lia]).
  destruct (db_node _ Hh) as (N1 & N2). destruct (db_tab_at _ Hh) as (_ & Tb & _). fold (db_b (f / 2 ^ 18)) in Tb.
  assert (Df : (f = 2 ^ 18 * (f / 2 ^ 18) + f mod 2 ^ 18)%Z) by (apply Z.div_mod; lia). pose proof (Z.mod_pos_bound f (2 ^ 18) ltac:(lia)) as Hg. set (h := (f / 2 ^ 18)%Z) in *. set (g := (f mod 2 ^ 18)%Z) in *. clearbody h g.
  set (th := IZR g / 262144). assert (Hth : 0 <= th <= 1). { assert (0 <= IZR g) by (apply IZR_le; lia). assert (IZR g <= 262144) by (apply IZR_le; lia). unfold th. lra. }
  set (fl := (db_b h * (g / 4) / 2 ^ 16)%Z).
  assert (Bb : 1 <= IZR (db_b h) <= 4379) by (split; apply IZR_le; lia).
  assert (Hfl : IZR (db_b h) * th - 1.07 <= IZR fl <= IZR (db_b h) * th).
  { assert (Z1 : (fl * 2 ^ 18 <= db_b h * g)%Z).
    { unfold fl. pose proof (Z.mul_div_le (db_b h * (g / 4)) (2 ^ 16) ltac:(lia)). pose proof (Z.mul_div_le g 4 ltac:(lia)). nia. }
    assert (Z2 : (db_b h * g - 3 * db_b h <= fl * 2 ^ 18 + 2 ^ 18)%Z).
    { unfold fl. pose proof (Z.mul_succ_div_gt (db_b h * (g / 4)) (2 ^ 16) ltac:(lia)). pose proof (Z.mod_pos_bound g 4 ltac:(lia)). pose proof (Z.div_mod g 4 ltac:(lia)). nia. }
    apply IZR_le in Z1, Z2. rewrite !mult_IZR in Z1. rewrite minus_IZR, plus_IZR, !mult_IZR in Z2. change (IZR (2 ^ 18)) with 262144 in *. unfold th. lra. }
  assert (Hh2 : 0 <= IZR h <= 31) by (split; apply IZR_le; lia). rewrite !plus_IZR in N2. rewrite plus_IZR in N1. set (H := IZR h) in *.
  assert (EL : ln ((1 + IZR f / 2 ^ 23) * p2 (E - 127)) = IZR (E - 127) * ln 2 + ln ((32 + H) / 32) + ln (1 + th * / (32 + H))).
  { rewrite bpow_exp. change (IZR radix2) with 2. rewrite ln_mult, ln_exp; [|assert (0 <= IZR f) by (apply IZR_le; lia); lra|apply exp_pos].
    assert (I : 0 < / (32 + H)) by (apply Rinv_0_lt_compat; lra). assert (0 <= th * / (32 + H)) by (apply Rmult_le_pos; lra). rewrite Rplus_assoc, <- ln_mult by lra. rewrite Rplus_comm. f_equal. f_equal. rewrite Df, plus_IZR, mult_IZR. fold H. change (IZR (2 ^ 18)) with 262144. unfold th. field. lra. }
  rewrite EL. assert (I32 : 0 <= / (32 + H) <= / 32) by (split; [left; apply Rinv_0_lt_compat; lra|apply Rinv_le; lra]).
  pose proof (chord _ th I32 Hth) as CH. assert (LT : ln (1 + / (32 + H)) = ln ((32 + (H + 1)) / 32) - ln ((32 + H) / 32)).
  { assert (P : 0 < / (32 + H)) by (apply Rinv_0_lt_compat; lra). replace ((32 + (H + 1)) / 32) with ((1 + / (32 + H)) * ((32 + H) / 32)) by (field; lra). rewrite ln_mult by lra. ring. }
  rewrite LT in CH. rewrite !plus_IZR, mult_IZR, minus_IZR, mult_IZR. rewrite minus_IZR. pose proof ln2_dec as L2. pose proof ln10_dec as L10.
  assert (HEr : -126 <= IZR E - 127 <= 126). { assert (1 <= IZR E) by (apply IZR_le; lia). assert (IZR E <= 253) by (apply IZR_le; lia). lra. }
  set (e := IZR E - 127) in *. replace ((2 * IZR E - 254) * 49321) with (98642 * e) by (unfold e; ring). clearbody e.
  change (IZR (db_g h + db_b h)) with (IZR (db_g h + db_b h)) in N2. try rewrite plus_IZR in N2.
  set (G := IZR (db_g h)) in *. set (B := IZR (db_b h)) in *. set (FL := IZR fl) in *. clearbody G B FL.
  set (la := ln ((32 + H) / 32)) in *. set (lb := ln ((32 + (H + 1)) / 32)) in *. set (lc := ln (1 + th * / (32 + H))) in *. clearbody la lb lc. set (l2 := ln 2) in *. set (l10 := ln 10) in *. clearbody l2 l10 th. clear - N1 N2 Hth Bb Hfl CH L2 L10 HEr.
  apply Rabs_le_inv in N1, N2, CH.
  assert (A1 : Rabs (98642 * e * l10 - 327680 * (e * l2)) <= 143).
  { replace (98642 * e * l10 - 327680 * (e * l2)) with (e * (98642 * l10 - 327680 * l2)) by ring. rewrite Rabs_mult. replace 143 with (126 * (143 / 126)) by field. apply Rmult_le_compat; try apply Rabs_pos; apply Rabs_le; lra. }
  assert (A2 : Rabs ((G + B * th) * l10 - 327680 * (la + th * (lb - la))) <= 2 * l10).
  { replace ((G + B * th) * l10 - 327680 * (la + th * (lb - la))) with ((1 - th) * (G * l10 - 327680 * la) + th * ((G + B) * l10 - 327680 * lb)) by ring.
    set (p := G * l10 - 327680 * la) in *. set (q := (G + B) * l10 - 327680 * lb) in *. clearbody p q. apply Rabs_le. split; nra. }
  assert (A3 : Rabs ((FL - B * th) * l10) <= 1.07 * l10). { rewrite Rabs_mult, (Rabs_pos_eq l10) by lra. apply Rmult_le_compat_r; [lra|apply Rabs_le; lra]. }
  apply Rabs_le_inv in A1, A2, A3. apply Rabs_le. split; lra.
Qed.

(** ** lc3_db_q16 *)
Lemma db_float nan (x : f32) : fin x -> p2 (-63) <= val x <= p2 63 ->
  exists d, db_q16 (f32_bits nan (Mul x x)) = Some d /\ Rabs (IZR d / 65536 - 10 * (ln (val x) / ln 10)) <= 0.0014.
Proof.
  intros F (H1 & H2). assert (P63 : 0 < p2 (-63)) by apply bpow_gt_0. assert (XX : p2 (-126) <= val x * val x <= p2 126).
  { change (p2 (-126)) with (p2 (-63 + -63)). change (p2 126) with (p2 (63 + 63)). rewrite !bpow_plus. split; apply Rmult_le_compat; lra. }
  assert (P126 : 0 < p2 (-126)) by apply bpow_gt_0.
  assert (R : p2 (-126) <= rnd32 (val x * val x) <= p2 126).
  { split; [apply round_ge_generic|apply round_le_generic]; try apply valid_rnd_N; try apply fexp_correct; try apply XX; try reflexivity; try exact I.
    all: try (replace (p2 (-126)) with (IZR 1 * p2 (- 126)) by (rewrite Rmult_1_l; reflexivity); apply fmt_Zp; lia). all: apply generic_format_bpow; reflexivity || (unfold fexp32; cbn; lia). }
  destruct (mul_val x x F F) as (Fm & Vm). { rewrite Rabs_pos_eq by lra. apply Rle_lt_trans with (p2 126); [lra|apply bpow_lt; lia]. }
  rewrite <- Vm in R. destruct (bits_normal nan (Mul x x) Fm ltac:(lra)) as (E & f & HE & Hf & Eb & Ev).
  assert (Bf : 0 <= IZR f <= 8388607) by (split; apply IZR_le; lia).
  assert (HE2 : (E <= 253)%Z). { apply Z.nlt_ge. intros C. assert (p2 127 <= p2 (E - 127)) by (apply bpow_le; lia). assert (p2 126 < p2 127) by (apply bpow_lt; lia). assert (0 < p2 126) by apply bpow_gt_0. nra. }
  rewrite Eb. destruct (db_q16_ok (E * 2 ^ 23 + f) ltac:(lia)) as (Q & _). exists (db_value (E * 2 ^ 23 + f)). split; [exact Q|].
  pose proof (db_near E f ltac:(lia) Hf) as N. rewrite <- Ev, Vm in N. set (d := IZR (db_value _)) in *. clearbody d.
  assert (LR : Rabs (ln (rnd32 (val x * val x)) - 2 * ln (val x)) <= 0.0000002).
  { destruct (relative_error_N_FLT_ex radix2 (-149) 24 ltac:(lia) (fun t => negb (Z.even t)) (val x * val x)) as (eps & He & Er).
    { rewrite Rabs_pos_eq by lra. change (-149 + 24 - 1)%Z with (-126)%Z. lra. }
    change (round radix2 (FLT_exp (-149) 24) ZnearestE (val x * val x)) with (rnd32 (val x * val x)) in Er || idtac.
    assert (Er2 : rnd32 (val x * val x) = val x * val x * (1 + eps)) by exact Er. rewrite Er2. assert (He2 : Rabs eps <= / 16777216) by (replace (/ 16777216) with (/ 2 * p2 (- (24) + 1)) by (cbn; lra); exact He). clear He. rename He2 into He. apply Rabs_le_inv in He.
    rewrite !ln_mult by (try lra; apply Rmult_lt_0_compat; lra). replace (ln (val x) + ln (val x) + ln (1 + eps) - 2 * ln (val x)) with (ln (1 + eps)) by ring.
    assert (LE : forall y, 0 < y -> ln y <= y - 1) by (intros y Hy; pose proof (exp_ineq1_le (ln y)) as X; rewrite exp_ln in X by exact Hy; lra).
    assert (Y : 0 < 1 + eps) by lra. pose proof (LE _ Y) as U1. assert (Y2 : 0 < / (1 + eps)) by (apply Rinv_0_lt_compat; exact Y). pose proof (LE _ Y2) as U2. rewrite ln_Rinv in U2 by exact Y.
    assert (Y3 : / (1 + eps) <= 1.0000001). { apply Rmult_le_reg_l with (1 + eps); [exact Y|]. rewrite Rinv_r by lra. lra. }
    apply Rabs_le. split; lra. }
  pose proof ln10_dec as L10. set (lr := ln (rnd32 (val x * val x))) in *. set (lx := ln (val x)) in *. clearbody lr lx. set (l10 := ln 10) in *. clearbody l10. apply Rabs_le_inv in N, LR.
  replace (d / 65536 - 10 * (lx / l10)) with ((d * l10 - 655360 * lx) / (65536 * l10)) by (field; lra).
  unfold Rdiv. rewrite Rabs_mult, (Rabs_pos_eq (/ _)) by (left; apply Rinv_0_lt_compat; lra). apply Rmult_le_reg_r with (65536 * l10); [lra|]. rewrite Rmult_assoc, Rinv_l, Rmult_1_r by lra. apply Rabs_le. split; lra.
Qed.
