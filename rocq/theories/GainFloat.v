(** * Global gain: the gains in binary32 *)
From Coq Require Import Reals ZArith List Bool Lia Lra ZifyBool.
From Verif Require Import Base BaseProofs ConfigModel FloatModel GainModel.
Import ListNotations.
Local Open Scope Z_scope.

(** A positive number, times 2^64; exact when the exponent is -64 at least. *)
Definition scaled (a : pfloat) : Z := fst a * 2 ^ (snd a + 64).
(** The table, to 2^-22: 28th powers. *)
Definition table_check (i : Z) : bool :=
  let n := (znth iq_table i 0 * 2 ^ 2) ^ 28 in let p := 10 ^ i * 2 ^ 84 in
  (0 <=? znth iq_table i 0) && ((2 ^ 22 - 1) ^ 28 * p <=? n) && (n <=? (2 ^ 22 + 1) ^ 28 * p).
Lemma table_checked : forallb table_check (map Z.of_nat (seq 0 28)) = true.
Proof. vm_compute. reflexivity. Qed.
(** The gains, to 2^-20: the table multiplied by the power of ten. *)
Definition near (x y : Z) : bool := ((2 ^ 20 - 1) * y <=? 2 ^ 20 * x) && (2 ^ 20 * x <=? (2 ^ 20 + 1) * y).
Definition gain_check (g : Z) : bool :=
  match unquantize_gain g, unquantize_gain (g + 1) with
  | Some a, Some b =>
      let q := g / 28 in let t := znth iq_table (g mod 28) 0 * 2 ^ 41 in
      (0 <? fst a) && (fst a <? 2 ^ 24) && (-64 <=? snd a) && (snd a <=? 8) && (scaled a <? scaled b) &&
      (let l := pmul (32767, 0) a in
       (-64 <=? snd l) && (scaled l <=? scaled (pmul (32767, 0) b)) && (2 ^ 23 * scaled l <=? (2 ^ 23 + 1) * (32767 * scaled a))) &&
      (if 0 <=? q then near (scaled a) (t * 10 ^ q) else near (scaled a * 10 ^ (- q)) t)
  | _, _ => false
  end.
Definition gain_range : list Z := map (fun n => Z.of_nat n - 255) (seq 0 511).
Lemma gains_checked : forallb gain_check gain_range = true.
Proof. vm_compute. reflexivity. Qed.

Lemma gain_at g : -255 <= g <= 255 -> gain_check g = true.
Proof.
  intros H. pose proof gains_checked as A. rewrite forallb_forall in A. apply A. apply in_map_iff. exists (Z.to_nat (g + 255)). split; [lia|]. apply in_seq. lia.
Qed.

Local Open Scope R_scope.
(** The value of a number. *)
Definition pvalue (a : pfloat) : R := IZR (fst a) * powerRZ 2 (snd a).
Lemma pow_rz n : 2 ^ n = powerRZ 2 (Z.of_nat n).
Proof. apply pow_powerRZ. Qed.
Lemma scaled_value a : (-64 <= snd a)%Z -> IZR (scaled a) = pvalue a * 2 ^ 64.
Proof.
  intros H. unfold scaled, pvalue. rewrite mult_IZR. replace (snd a + 64)%Z with (Z.of_nat (Z.to_nat (snd a + 64))) at 1 by lia. rewrite <- pow_IZR.
  rewrite Rmult_assoc. f_equal. rewrite !pow_rz, <- powerRZ_add by lra. f_equal. lia.
Qed.
Lemma pvalue_pos a : (0 < fst a)%Z -> 0 < pvalue a.
Proof. intros H. unfold pvalue. apply Rmult_lt_0_compat; [apply IZR_lt; exact H|apply powerRZ_lt; lra]. Qed.

(** ** Roots *)
Lemma pow_lt_S x y n : 0 <= y < x -> y ^ S n < x ^ S n.
Proof.
  intros H. induction n as [|n IH]; [rewrite !pow_1; lra|]. change (y ^ S (S n)) with (y * y ^ S n). change (x ^ S (S n)) with (x * x ^ S n).
  apply Rmult_le_0_lt_compat; try lra. apply pow_le. lra.
Qed.
Lemma root_le x y n : 0 <= y -> x ^ S n <= y ^ S n -> x <= y.
Proof. intros Hy H. destruct (Rle_lt_dec x y) as [C|C]; [exact C|]. pose proof (pow_lt_S x y n ltac:(lra)). lra. Qed.

(** ** Powers of ten *)
Definition ten (g : Z) : R := Rpower 10 (IZR g / 28).
Lemma ten_pos g : 0 < ten g.
Proof. apply exp_pos. Qed.
Lemma ten_add a b : ten (a + b) = ten a * ten b.
Proof. unfold ten. rewrite <- Rpower_plus. f_equal. rewrite plus_IZR. field. Qed.
Lemma ten_28 q : ten (28 * q) = powerRZ 10 q.
Proof. unfold ten. rewrite powerRZ_Rpower by lra. f_equal. rewrite mult_IZR. field. Qed.
Lemma ten_pow g n : ten g ^ n = ten (g * Z.of_nat n).
Proof.
  induction n as [|n IH]; [rewrite Z.mul_0_r; unfold ten, Rdiv; rewrite Rmult_0_l, Rpower_O by lra; reflexivity|].
  cbn [pow]. rewrite IH, <- ten_add. f_equal. lia.
Qed.
Lemma ten_root i : (0 <= i)%Z -> ten i ^ 28 = IZR (10 ^ i).
Proof.
  intros H. rewrite ten_pow. change (Z.of_nat 28) with 28%Z. rewrite Z.mul_comm, ten_28. replace i with (Z.of_nat (Z.to_nat i)) by lia. rewrite <- pow_powerRZ, <- pow_IZR. reflexivity.
Qed.

(** ** The table *)
Lemma table_at i : (0 <= i < 28)%Z ->
  (1 - / 2 ^ 22) * ten i <= IZR (znth iq_table i 0%Z) / 2 ^ 23 <= (1 + / 2 ^ 22) * ten i.
Proof.
  intros H. pose proof table_checked as A. rewrite forallb_forall in A. specialize (A i). cbv beta in A.
  assert (I : In i (map Z.of_nat (seq 0 28))). { apply in_map_iff. exists (Z.to_nat i). split; [lia|]. apply in_seq. lia. }
  specialize (A I). unfold table_check in A. set (t := znth iq_table i 0%Z) in *. clearbody t. cbv zeta in A.
  apply andb_prop in A. destruct A as [A B]. apply andb_prop in A. destruct A as [T0 A]. apply Z.leb_le in A, B, T0. apply IZR_le in A, B, T0.
  assert (P : forall x, IZR (x ^ 28) = IZR x ^ 28) by (intros x; rewrite pow_IZR; reflexivity).
  rewrite !mult_IZR, !P in A, B. rewrite <- (ten_root i) in A, B by lia.
  assert (E : ten i ^ 28 * IZR (2 ^ 84) = (ten i * 8) ^ 28). { rewrite Rpow_mult_distr. f_equal. rewrite (pow_IZR 8 28). reflexivity. }
  rewrite E, <- !Rpow_mult_distr in A, B. pose proof (ten_pos i) as Tp.
  assert (E4 : IZR (t * 2 ^ 2) = IZR t * 4) by (rewrite mult_IZR; reflexivity). rewrite E4 in A, B.
  assert (E22 : IZR (2 ^ 22 - 1) = 2 ^ 22 - 1) by (rewrite minus_IZR, (pow_IZR 2 22); reflexivity).
  assert (E22' : IZR (2 ^ 22 + 1) = 2 ^ 22 + 1) by (rewrite plus_IZR, (pow_IZR 2 22); reflexivity).
  rewrite E22 in A. rewrite E22' in B.
  apply root_le in A; [|lra]. apply root_le in B; [|assert (0 < 2 ^ 22) by (apply pow_lt; lra); apply Rmult_le_pos; lra].
  assert (Z22 : 0 < 2 ^ 22) by (apply pow_lt; lra). replace (2 ^ 23) with (2 * 2 ^ 22) by (cbn [pow]; ring). set (z := 2 ^ 22) in *. clearbody z. clear - A B Z22.
  assert (Zi : 0 < / z) by (apply Rinv_0_lt_compat; exact Z22). split.
  - apply (Rmult_le_reg_r (8 * z)); [lra|]. replace (IZR t / (2 * z) * (8 * z)) with (IZR t * 4) by (field; lra). replace ((1 - / z) * ten i * (8 * z)) with ((z - 1) * (ten i * 8)) by (field; lra). exact A.
  - apply (Rmult_le_reg_r (8 * z)); [lra|]. replace (IZR t / (2 * z) * (8 * z)) with (IZR t * 4) by (field; lra). replace ((1 + / z) * ten i * (8 * z)) with ((z + 1) * (ten i * 8)) by (field; lra). exact B.
Qed.

(** ** The gains *)
Lemma near_real x y : near x y = true -> (1 - / 2 ^ 20) * IZR y <= IZR x <= (1 + / 2 ^ 20) * IZR y.
Proof.
  unfold near. intros H. apply andb_prop in H. destruct H as [A B]. apply Z.leb_le in A, B. apply IZR_le in A, B. rewrite !mult_IZR in A, B.
  assert (E22 : IZR (2 ^ 20 - 1) = 2 ^ 20 - 1) by (rewrite minus_IZR, (pow_IZR 2 20); reflexivity).
  assert (E22' : IZR (2 ^ 20 + 1) = 2 ^ 20 + 1) by (rewrite plus_IZR, (pow_IZR 2 20); reflexivity).
  assert (E20 : IZR (2 ^ 20) = 2 ^ 20) by (rewrite (pow_IZR 2 20); reflexivity).
  rewrite E22, E20 in A. rewrite E22', E20 in B. assert (Z20 : 0 < 2 ^ 20) by (apply pow_lt; lra). set (z := 2 ^ 20) in *. clearbody z. clear - A B Z20. split.
  - apply (Rmult_le_reg_r z); [lra|]. replace ((1 - / z) * IZR y * z) with ((z - 1) * IZR y) by (field; lra). lra.
  - apply (Rmult_le_reg_r z); [lra|]. replace ((1 + / z) * IZR y * z) with ((z + 1) * IZR y) by (field; lra). lra.
Qed.

Lemma gain_value g : (-255 <= g <= 255)%Z -> exists a, unquantize_gain g = Some a /\ 0 < pvalue a /\
  (1 - / 2 ^ 19) * ten g <= pvalue a <= (1 + / 2 ^ 19) * ten g.
Proof.
  intros H. pose proof (gain_at g H) as C. unfold gain_check in C. destruct (unquantize_gain g) as [a|]; [|discriminate]. destruct (unquantize_gain (g + 1)) as [b|]; [|discriminate].
  cbv zeta in C. repeat (apply andb_prop in C; destruct C as [C ?]). exists a. split; [reflexivity|]. split; [apply pvalue_pos; lia|].
  assert (Hi : (0 <= g mod 28 < 28)%Z) by (apply Z.mod_pos_bound; lia). destruct (table_at _ Hi) as [T1 T2]. set (i := (g mod 28)%Z) in *. set (q := (g / 28)%Z) in *.
  assert (Eg : ten g = powerRZ 10 q * ten i). { rewrite <- ten_28, <- ten_add. f_equal. unfold q, i. apply Z.div_mod. lia. }
  assert (S : IZR (scaled a) = pvalue a * 2 ^ 64) by (apply scaled_value; lia).
  set (t := znth iq_table i 0%Z) in *. assert (P10 : 0 < powerRZ 10 q) by (apply powerRZ_lt; lra).
  assert (N : (1 - / 2 ^ 20) * (IZR t / 2 ^ 23 * powerRZ 10 q) <= pvalue a <= (1 + / 2 ^ 20) * (IZR t / 2 ^ 23 * powerRZ 10 q)).
  { assert (E41 : IZR (t * 2 ^ 41) = IZR t / 2 ^ 23 * 2 ^ 64). { rewrite mult_IZR. assert (IZR (2 ^ 41) = 2 ^ 41) as -> by (rewrite (pow_IZR 2 41); reflexivity). replace (2 ^ 64) with (2 ^ 41 * 2 ^ 23) by (rewrite <- pow_add; reflexivity). field; apply pow_nonzero; lra. }
    assert (Z64 : 0 < 2 ^ 64) by (apply pow_lt; lra). set (z := 2 ^ 64) in *. clearbody z.
    destruct (0 <=? q)%Z eqn:Q.
    - match goal with H : near _ _ = true |- _ => apply near_real in H; destruct H as [N1 N2] end. rewrite mult_IZR, E41, S in N1, N2.
      assert (E10 : IZR (10 ^ q) = powerRZ 10 q). { replace q with (Z.of_nat (Z.to_nat q)) by lia. rewrite <- pow_powerRZ, <- pow_IZR. reflexivity. }
      rewrite E10 in N1, N2. split; apply (Rmult_le_reg_r z); try lra.
    - match goal with H : near _ _ = true |- _ => apply near_real in H; destruct H as [N1 N2] end. rewrite E41, mult_IZR, S in N1, N2.
      assert (E10 : IZR (10 ^ (- q)) * powerRZ 10 q = 1). { replace (IZR (10 ^ (- q))) with (powerRZ 10 (- q)). - rewrite <- powerRZ_add by lra. replace (- q + q)%Z with 0%Z by lia. reflexivity. - replace (- q)%Z with (Z.of_nat (Z.to_nat (- q))) by lia. rewrite <- pow_powerRZ, <- pow_IZR. reflexivity. }
      set (p := IZR (10 ^ (- q))) in *. set (r := powerRZ 10 q) in *. clearbody p r.
      split.
      + apply (Rmult_le_reg_r z); [lra|]. replace (pvalue a * z) with (pvalue a * z * p * r) by (rewrite !Rmult_assoc, E10; ring).
        apply Rle_trans with ((1 - / 2 ^ 20) * (IZR t / 2 ^ 23 * z) * r); [right; ring|]. apply Rmult_le_compat_r; lra.
      + apply (Rmult_le_reg_r z); [lra|]. replace (pvalue a * z) with (pvalue a * z * p * r) by (rewrite !Rmult_assoc, E10; ring).
        apply Rle_trans with ((1 + / 2 ^ 20) * (IZR t / 2 ^ 23 * z) * r); [|right; ring]. apply Rmult_le_compat_r; lra. }
  rewrite Eg. pose proof (ten_pos i) as Tp. set (p := powerRZ 10 q) in *. set (v := IZR t / 2 ^ 23) in *. set (s := ten i) in *. clearbody p v s. clear - N T1 T2 Tp P10.
  assert (A20 : / 2 ^ 20 = / 2 ^ 19 / 2). { replace (2 ^ 20) with (2 * 2 ^ 19) by (cbn [pow]; ring). field; apply pow_nonzero; lra. }
  assert (A22 : / 2 ^ 22 = / 2 ^ 19 / 8). { replace (2 ^ 22) with (8 * 2 ^ 19) by (cbn [pow]; ring). field; apply pow_nonzero; lra. }
  assert (A19 : 0 < / 2 ^ 19 < / 8). { split; [apply Rinv_0_lt_compat, pow_lt; lra|]. apply Rinv_lt_contravar; [apply Rmult_lt_0_compat; [lra|apply pow_lt; lra]|]. replace (2 ^ 19) with (16 * 2 ^ 15) by (cbn [pow]; ring). assert (1 <= 2 ^ 15) by (apply pow_R1_Rle; lra). lra. }
  rewrite A20, A22 in *. set (e := / 2 ^ 19) in *. clearbody e. assert (SP : 0 < s * p) by (apply Rmult_lt_0_compat; assumption).
  assert (V1 : (1 - e / 8) * (s * p) <= v * p) by (rewrite <- Rmult_assoc; apply Rmult_le_compat_r; lra).
  assert (V2 : v * p <= (1 + e / 8) * (s * p)) by (rewrite <- Rmult_assoc; apply Rmult_le_compat_r; lra).
  set (u := s * p) in *. set (w := v * p) in *. replace (p * s) with u by (unfold u; ring). clearbody u w. clear - N V1 V2 A19 SP. split.
  - apply Rle_trans with ((1 - e / 2) * ((1 - e / 8) * u)).
    + replace ((1 - e / 2) * ((1 - e / 8) * u)) with (((1 - e / 2) * (1 - e / 8)) * u) by ring. apply Rmult_le_compat_r; [lra|]. nra.
    + apply Rle_trans with ((1 - e / 2) * w); [apply Rmult_le_compat_l; lra|lra].
  - apply Rle_trans with ((1 + e / 2) * w); [lra|]. apply Rle_trans with ((1 + e / 2) * ((1 + e / 8) * u)); [apply Rmult_le_compat_l; lra|].
    replace ((1 + e / 2) * ((1 + e / 8) * u)) with (((1 + e / 2) * (1 + e / 8)) * u) by ring. apply Rmult_le_compat_r; [lra|]. nra.
Qed.

(** ** The limit of the quantizer *)
Local Open Scope Z_scope.
(** src/spec.c lines 172, 176: the comparison with the maximum [x_max] of the spectrum, a
    multiple of 2^-149. *)
Definition fits_limit (sr x_max g : Z) : bool :=
  match unquantize_gain g with
  | Some a => let l := pmul (32767, if is_hr sr then 8 else 0) a in x_max <? fst l * 2 ^ (snd l + 149)
  | None => false
  end.

Lemma pmul_exp m k a : pmul (m, k) a = (fst (pmul (m, 0) a), snd (pmul (m, 0) a) + k).
Proof. unfold pmul. cbn [fst snd]. f_equal. lia. Qed.
Lemma rescale_149 m e : -64 <= e -> m * 2 ^ (e + 149) = m * 2 ^ (e + 64) * 2 ^ 85.
Proof. intros H. rewrite <- Z.mul_assoc, <- Z.pow_add_r by lia. do 2 f_equal. lia. Qed.
Lemma rescale_k m e k : -64 <= e -> 0 <= k -> m * 2 ^ (e + k + 149) = m * 2 ^ (e + 64) * 2 ^ (k + 85).
Proof. intros H H'. rewrite <- Z.mul_assoc, <- Z.pow_add_r by lia. do 2 f_equal. lia. Qed.
Lemma fits_mono sr x g : -255 <= g < 255 -> fits_limit sr x g = true -> fits_limit sr x (g + 1) = true.
Proof.
  intros H F. pose proof (gain_at g ltac:(lia)) as C. pose proof (gain_at (g + 1) ltac:(lia)) as C'. unfold gain_check in C, C'. unfold fits_limit in *.
  destruct (unquantize_gain g) as [a|]; [|discriminate]. destruct (unquantize_gain (g + 1)) as [b|]; [|discriminate]. destruct (unquantize_gain (g + 1 + 1)) as [c|]; [|discriminate].
  cbv zeta in *. set (k := if is_hr sr then 8 else 0) in *. assert (Hk : 0 <= k) by (unfold k; destruct (is_hr sr); lia). clearbody k.
  rewrite pmul_exp in F |- *. unfold scaled in *. cbn [fst snd] in *. set (la := pmul (32767, 0) a) in *. set (lb := pmul (32767, 0) b) in *.
  assert (L : fst la * 2 ^ (snd la + 64) <= fst lb * 2 ^ (snd lb + 64)) by lia. assert (E1 : -64 <= snd la) by lia. assert (E2 : -64 <= snd lb) by lia. clearbody la lb. clear C C'.
  apply Z.ltb_lt. apply Z.ltb_lt in F.
  rewrite (rescale_k _ _ _ E1 Hk) in F. rewrite (rescale_k _ _ _ E2 Hk).
  eapply Z.lt_le_trans; [exact F|]. apply Z.mul_le_mono_nonneg_r; [apply Z.pow_nonneg; lia|exact L].
Qed.
Lemma fits_le sr x g g' : -255 <= g <= g' -> g' <= 255 -> fits_limit sr x g = true -> fits_limit sr x g' = true.
Proof.
  intros H H' F. replace g' with (g + (g' - g)) by lia. assert (K : 0 <= g' - g) by lia. assert (K' : g + (g' - g) <= 255) by lia. revert K K'. generalize (g' - g). intros n Hn. revert n Hn.
  apply (natlike_ind (fun n => g + n <= 255 -> fits_limit sr x (g + n) = true)).
  - intros _. rewrite Z.add_0_r. exact F.
  - intros n Hn IH K'. replace (g + Z.succ n) with (g + n + 1) by lia. apply fits_mono; [lia|]. apply IH. lia.
Qed.

Local Open Scope R_scope.
Lemma fits_value sr x g : (-255 <= g <= 255)%Z -> fits_limit sr x g = true ->
  IZR x / 2 ^ 149 < (1 + / 2 ^ 18) * ((if is_hr sr then 2 ^ 8 else 1) * 32767 * ten g).
Proof.
  intros H F. destruct (gain_value g H) as (a & Ea & Pa & _ & Va). pose proof (gain_at g H) as C. unfold gain_check in C. unfold fits_limit in F. rewrite Ea in *.
  destruct (unquantize_gain (g + 1)) as [b|]; [|discriminate]. cbv zeta in *. repeat (apply andb_prop in C; destruct C as [C ?]).
  set (k := (if is_hr sr then 8 else 0)%Z) in *. assert (Ek : (if is_hr sr then 2 ^ 8 else 1) = IZR (2 ^ k)) by (unfold k; destruct (is_hr sr); [apply (pow_IZR 2 8)|reflexivity]). rewrite Ek.
  assert (Hk : (0 <= k)%Z) by (unfold k; destruct (is_hr sr); lia). clearbody k. clear Ek.
  rewrite pmul_exp in F. cbn [fst snd] in F. set (l := pmul (32767%Z, 0%Z) a) in *. rewrite rescale_149 in F by lia. replace (snd l + k + 64)%Z with (snd l + 64 + k)%Z in F by lia.
  rewrite Z.pow_add_r, Z.mul_assoc in F by lia. change (fst l * 2 ^ (snd l + 64))%Z with (scaled l) in F.
  assert (N : (2 ^ 23 * scaled l <= (2 ^ 23 + 1) * (32767 * scaled a))%Z) by lia. set (L := scaled l) in *. clearbody L l.
  assert (Sa : IZR (scaled a) = pvalue a * 2 ^ 64) by (apply scaled_value; lia).
  set (sa := scaled a) in *. clearbody sa. apply Z.ltb_lt in F. apply IZR_lt in F. apply IZR_le in N. rewrite !mult_IZR in F, N. rewrite (mult_IZR 32767), Sa in N. rewrite plus_IZR in N.
  assert (E23 : IZR (2 ^ 23) = 2 ^ 23) by (rewrite (pow_IZR 2 23); reflexivity). assert (E85 : IZR (2 ^ 85) = 2 ^ 85) by (rewrite (pow_IZR 2 85); reflexivity). rewrite E23 in N. rewrite E85 in F.
  assert (K0 : 0 < IZR (2 ^ k)) by (apply IZR_lt; apply Z.pow_pos_nonneg; lia). set (K := IZR (2 ^ k)) in *. clearbody K.
  replace (2 ^ 149) with (2 ^ 64 * 2 ^ 85) by (rewrite <- pow_add; reflexivity). assert (Z85 : 0 < 2 ^ 85) by (apply pow_lt; lra). assert (Z64 : 0 < 2 ^ 64) by (apply pow_lt; lra).
  assert (Z18 : 2 ^ 23 = 32 * 2 ^ 18) by (cbn [pow]; ring). assert (Z19 : / 2 ^ 19 = / 2 ^ 18 / 2). { replace (2 ^ 19) with (2 * 2 ^ 18) by (cbn [pow]; ring). field; apply pow_nonzero; lra. }
  assert (Z18p : 16 <= 2 ^ 18). { replace (2 ^ 18) with (16 * 2 ^ 14) by (cbn [pow]; ring). assert (1 <= 2 ^ 14) by (apply pow_R1_Rle; lra). lra. }
  rewrite Z18 in N. rewrite Z19 in Va. set (y := 2 ^ 18) in *. set (z := 2 ^ 64) in *. set (w := 2 ^ 85) in *. pose proof (ten_pos g) as Tp. set (tg := ten g) in *. set (p := pvalue a) in *. clearbody y z w tg p. clear - F N Va K0 Z85 Z64 Z18p Tp Pa.
  assert (Yi : 0 < / y <= / 16) by (split; [apply Rinv_0_lt_compat; lra|apply Rinv_le_contravar; lra]).
  apply Rmult_lt_reg_r with (z * w); [apply Rmult_lt_0_compat; lra|]. replace (IZR x / (z * w) * (z * w)) with (IZR x) by (field; lra).
  eapply Rlt_le_trans; [exact F|].
  assert (N2 : IZR L <= (1 + / y / 32) * 32767 * p * z).
  { apply (Rmult_le_reg_l (32 * y)); [lra|]. replace (32 * y * ((1 + / y / 32) * 32767 * p * z)) with ((32 * y + 1) * (32767 * (p * z))) by (field; lra). exact N. }
  set (i := / y) in *. clearbody i. clear - N2 Va K0 Z85 Z64 Yi Tp Pa.
  apply Rle_trans with ((1 + i / 32) * 32767 * p * z * K * w).
  { apply Rmult_le_compat_r; [lra|]. apply Rmult_le_compat_r; [lra|exact N2]. }
  replace ((1 + i / 32) * 32767 * p * z * K * w) with (((1 + i / 32) * p) * (32767 * z * K * w)) by ring.
  replace ((1 + i) * (K * 32767 * tg) * (z * w)) with (((1 + i) * tg) * (32767 * z * K * w)) by ring.
  apply Rmult_le_compat_r; [repeat apply Rmult_le_pos; lra|].
  apply Rle_trans with ((1 + i / 32) * ((1 + i / 2) * tg)); [apply Rmult_le_compat_l; lra|].
  replace ((1 + i / 32) * ((1 + i / 2) * tg)) with (((1 + i / 32) * (1 + i / 2)) * tg) by ring. apply Rmult_le_compat_r; [lra|]. nra.
Qed.
