(** * lc3_exp2f in binary32 *)
From Coq Require Import Reals ZArith List Bool Lia Lra Psatz.
From Flocq Require Import Core.Core IEEE754.BinarySingleNaN.
From Verif Require Import Base FloatOps FloatLaws F32Model F32Proofs GainModel GainProofs SpecEncModel SpecEncFloat FastReal FastFloat.
Import ListNotations.
Local Open Scope R_scope.

(** ** The table of the powers of 2 ^ (1 / 8) *)
Lemma root8 E T X d : 0 < T -> T ^ 8 = X -> 0 < d <= / 1000 -> 0 < E -> E ^ 8 <= (1 + 8 * d) * X -> (1 - 8 * d + 28 * d * d) * X <= E ^ 8 -> Rabs (E - T) <= d * T.
Proof.
  intros HT EX Hd HE H1 H2. assert (P8 : 0 < T ^ 8) by (apply pow_lt; lra). apply Rabs_le. split.
  - destruct (Rle_lt_dec ((1 - d) * T) E) as [C|C]; [lra|exfalso].
    assert (C8 : E ^ 8 < ((1 - d) * T) ^ 8).
    { set (M := (1 - d) * T) in *. clearbody M. assert (E ^ 2 < M ^ 2) by nra. assert (0 < E ^ 2) by nra. assert (E ^ 4 < M ^ 4) by (replace (E ^ 4) with (E ^ 2 * E ^ 2) by ring; replace (M ^ 4) with (M ^ 2 * M ^ 2) by ring; nra).
      assert (0 < E ^ 4) by (apply pow_lt; lra). replace (E ^ 8) with (E ^ 4 * E ^ 4) by ring. replace (M ^ 8) with (M ^ 4 * M ^ 4) by ring. nra. }
    rewrite Rpow_mult_distr, EX in C8. rewrite EX in P8. assert ((1 - d) ^ 8 <= 1 - 8 * d + 28 * d * d).
    { assert (A2 : (1 - d) ^ 2 = 1 - 2 * d + d * d) by ring. assert (A4 : (1 - d) ^ 4 <= 1 - 4 * d + 6 * (d * d)). { replace ((1 - d) ^ 4) with ((1 - 4 * d + 6 * (d * d)) - d * d * d * (4 - d)) by ring. assert (0 <= d * d * d * (4 - d)) by (apply Rmult_le_pos; [|lra]; apply Rmult_le_pos; nra). lra. }
      assert (0 <= (1 - d) ^ 4) by (apply pow_le; lra). replace ((1 - d) ^ 8) with ((1 - d) ^ 4 * (1 - d) ^ 4) by ring. assert ((1 - d) ^ 4 * (1 - d) ^ 4 <= (1 - 4 * d + 6 * (d * d)) * (1 - 4 * d + 6 * (d * d))) by (apply Rmult_le_compat; lra).
      assert ((1 - 4 * d + 6 * (d * d)) * (1 - 4 * d + 6 * (d * d)) = 1 - 8 * d + 28 * d * d - d * d * d * (48 - 36 * d)) by ring. assert (0 <= d * d * d * (48 - 36 * d)) by (apply Rmult_le_pos; [|lra]; apply Rmult_le_pos; nra). lra. }
    assert ((1 - d) ^ 8 * X <= (1 - 8 * d + 28 * d * d) * X) by (apply Rmult_le_compat_r; lra). lra.
  - destruct (Rle_lt_dec E ((1 + d) * T)) as [C|C]; [lra|exfalso].
    assert (C8 : ((1 + d) * T) ^ 8 < E ^ 8).
    { set (M := (1 + d) * T) in *. assert (0 < M) by (unfold M; nra). clearbody M. assert (M ^ 2 < E ^ 2) by nra. assert (0 < M ^ 2) by nra. assert (M ^ 4 < E ^ 4) by (replace (E ^ 4) with (E ^ 2 * E ^ 2) by ring; replace (M ^ 4) with (M ^ 2 * M ^ 2) by ring; nra).
      assert (0 < M ^ 4) by (apply pow_lt; lra). replace (E ^ 8) with (E ^ 4 * E ^ 4) by ring. replace (M ^ 8) with (M ^ 4 * M ^ 4) by ring. nra. }
    rewrite Rpow_mult_distr, EX in C8. rewrite EX in P8. assert (1 + 8 * d <= (1 + d) ^ 8).
    { pose proof (poly 8 d ltac:(lra)) as Q. rewrite INR_IZR_INZ in Q. change (Z.of_nat 8) with 8%Z in Q. lra. }
    assert ((1 + 8 * d) * X <= (1 + d) ^ 8 * X) by (apply Rmult_le_compat_r; lra). lra.
Qed.
Definition exp2_T (r : Z) : R := Rpower 2 (IZR r / 8).
Lemma exp2_T8 r : exp2_T r ^ 8 = Rpower 2 (IZR r).
Proof. unfold exp2_T. rewrite <- Rpower_pow, Rpower_mult by apply exp_pos. f_equal. change (INR 8) with 8 || replace (INR 8) with 8 by (cbn; lra). field. Qed.
Lemma exp2_tab r : (0 <= r < 8)%Z -> exists E, fin (f32_dy (fst (nth (Z.to_nat r) exp2_e (1, 0)%Z)) (snd (nth (Z.to_nat r) exp2_e (1, 0)%Z))) /\
  Rabs (val (f32_dy (fst (nth (Z.to_nat r) exp2_e (1, 0)%Z)) (snd (nth (Z.to_nat r) exp2_e (1, 0)%Z))) - E) <= 0 /\ 1 <= E <= 1.8341 /\ Rabs (E - exp2_T r) <= 0.000000033 * exp2_T r.
Proof.
  intros H. assert (W : forall m s X E, (Z.abs m <= 2 ^ 24)%Z -> (-100 <= s <= 149)%Z -> IZR m * p2 (- s) = E -> Rpower 2 (IZR r) = X -> 1 <= E <= 1.8341 ->
    E ^ 8 <= (1 + 8 * 0.000000033) * X -> (1 - 8 * 0.000000033 + 28 * 0.000000033 * 0.000000033) * X <= E ^ 8 ->
    exists E, fin (f32_dy m s) /\ Rabs (val (f32_dy m s) - E) <= 0 /\ 1 <= E <= 1.8341 /\ Rabs (E - exp2_T r) <= 0.000000033 * exp2_T r).
  { intros m s X E Hm Hs EE EX HE H1 H2. exists E. destruct (dy_near m s E Hm Hs EE) as (F & V). split; [exact F|]. split; [exact V|]. split; [exact HE|]. apply (root8 E (exp2_T r) X); try lra; [apply exp_pos|]. rewrite exp2_T8. exact EX. }
  assert (RP : forall n, Rpower 2 (IZR (Z.of_nat n)) = 2 ^ n) by (intros n; rewrite <- INR_IZR_INZ; apply Rpower_pow; lra).
  assert (C : (r = 0 \/ r = 1 \/ r = 2 \/ r = 3 \/ r = 4 \/ r = 5 \/ r = 6 \/ r = 7)%Z) by lia.
  destruct C as [->|[->|[->|[->|[->|[->|[->| ->]]]]]]].
  - change (Z.to_nat 0) with 0%nat. cbn [nth exp2_e fst snd]. eapply W; [lia|lia|reflexivity|apply (RP 0%nat)| | |]; cbn [pow]; change (p2 (-0)) with 1; lra.
  - change (Z.to_nat 1) with 1%nat. cbn [nth exp2_e fst snd]. eapply W; [lia|lia|reflexivity|apply (RP 1%nat)| | |]; cbn [pow]; cbn [bpow Z.opp]; change (IZR (Z.pow_pos radix2 22)) with 4194304; lra.
  - change (Z.to_nat 2) with 2%nat. cbn [nth exp2_e fst snd]. eapply W; [lia|lia|reflexivity|apply (RP 2%nat)| | |]; cbn [pow]; cbn [bpow Z.opp]; change (IZR (Z.pow_pos radix2 19)) with 524288; lra.
  - change (Z.to_nat 3) with 3%nat. cbn [nth exp2_e fst snd]. eapply W; [lia|lia|reflexivity|apply (RP 3%nat)| | |]; cbn [pow]; cbn [bpow Z.opp]; change (IZR (Z.pow_pos radix2 23)) with 8388608; lra.
  - change (Z.to_nat 4) with 4%nat. cbn [nth exp2_e fst snd]. eapply W; [lia|lia|reflexivity|apply (RP 4%nat)| | |]; cbn [pow]; cbn [bpow Z.opp]; change (IZR (Z.pow_pos radix2 23)) with 8388608; lra.
  - change (Z.to_nat 5) with 5%nat. cbn [nth exp2_e fst snd]. eapply W; [lia|lia|reflexivity|apply (RP 5%nat)| | |]; cbn [pow]; cbn [bpow Z.opp]; change (IZR (Z.pow_pos radix2 22)) with 4194304; lra.
  - change (Z.to_nat 6) with 6%nat. cbn [nth exp2_e fst snd]. eapply W; [lia|lia|reflexivity|apply (RP 6%nat)| | |]; cbn [pow]; cbn [bpow Z.opp]; change (IZR (Z.pow_pos radix2 23)) with 8388608; lra.
  - change (Z.to_nat 7) with 7%nat. cbn [nth exp2_e fst snd]. eapply W; [lia|lia|reflexivity|apply (RP 7%nat)| | |]; cbn [pow]; cbn [bpow Z.opp]; change (IZR (Z.pow_pos radix2 23)) with 8388608; lra.
Qed.

(** ** The split of the operand *)
Definition exp2_c : f32 := f32_dy 3 (-19).
Lemma exp2_c_val : fin exp2_c /\ val exp2_c = 1572864.
Proof. destruct (dy_exact 3 (-19) ltac:(lia) ltac:(lia)) as (F & V). split; [exact F|]. unfold exp2_c. rewrite V. change (p2 (- -19)) with 524288. lra. Qed.
Lemma exp2_split nan (x : f32) : fin x -> Rabs (val x) <= 100 ->
  exists n, (-801 <= n <= 801)%Z /\ Rabs (val x - IZR n / 8) <= / 16 /\ f32_bits nan (Add x exp2_c) = (147 * 2 ^ 23 + 2 ^ 22 + n)%Z /\
    fin (Sub (Add x exp2_c) exp2_c) /\ val (Sub (Add x exp2_c) exp2_c) = IZR n / 8.
Proof.
  intros F H. destruct exp2_c_val as (Fc & Vc). apply Rabs_le_inv in H.
  assert (P60 : 2000000 <= p2 60) by (apply Rle_trans with (p2 21); [cbn; lra|apply bpow_le; lia]).
  destruct (rnd_near (val x + val exp2_c) 1572964 ltac:(rewrite Vc; apply Rabs_le; lra) ltac:(lra)) as (R1 & _).
  destruct (add_val x exp2_c F Fc R1) as (Fv & Vv).
  assert (D : Rabs (val (Add x exp2_c) - (val x + 1572864)) <= / 16).
  { rewrite Vv, Vc. assert (U : ulp radix2 fexp32 (val x + 1572864) = p2 (-3)).
    { rewrite ulp_neq_0 by lra. f_equal. unfold cexp. rewrite (mag_unique radix2 (val x + 1572864) 21); [reflexivity|]. rewrite Rabs_pos_eq by lra. change (p2 (21 - 1)) with 1048576. change (p2 21) with 2097152. lra. }
    pose proof (error_le_half_ulp radix2 fexp32 (fun t => negb (Z.even t)) (val x + 1572864)) as Q. rewrite U in Q. change (p2 (-3)) with (/ 8) in Q. lra. }
  apply Rabs_le_inv in D. destruct (bits_normal nan (Add x exp2_c) Fv) as (E & f & HE & Hf & Eb & Ev).
  { apply Rle_trans with 1; [change 1 with (p2 0); apply bpow_le; lia|lra]. }
  assert (Bf : 0 <= IZR f <= 8388607) by (split; apply IZR_le; lia).
  assert (EE : (E = 147)%Z).
  { destruct (Z_lt_le_dec E 147) as [C|C].
    - assert (p2 (E - 127) <= p2 19) by (apply bpow_le; lia). change (p2 19) with 524288 in *. nra.
    - destruct (Z_lt_le_dec 147 E) as [C2|C2]; [|lia]. assert (p2 21 <= p2 (E - 127)) by (apply bpow_le; lia). change (p2 21) with 2097152 in *. nra. }
  subst E. change (p2 (147 - 127)) with 1048576 in Ev. assert (Vn : val (Add x exp2_c) = 1572864 + IZR (f - 2 ^ 22) / 8).
  { rewrite Ev, minus_IZR. change (IZR (2 ^ 22)) with 4194304. lra. }
  exists (f - 2 ^ 22)%Z. set (n := (f - 2 ^ 22)%Z) in *. assert (Rn : -801 <= IZR n <= 801) by lra. split; [split; apply le_IZR; lra|]. split; [apply Rabs_le; lra|]. split; [rewrite Eb; unfold n; lia|].
  assert (N8 : val (Add x exp2_c) - val exp2_c = IZR n * p2 (- (3))) by (rewrite Vn, Vc; change (p2 (- (3))) with (/ 8); lra).
  assert (Zn : (-801 <= n <= 801)%Z) by (split; apply le_IZR; lra).
  assert (R : rnd32 (val (Add x exp2_c) - val exp2_c) = IZR n / 8).
  { rewrite N8. rewrite round_generic; [change (p2 (- (3))) with (/ 8); reflexivity|apply valid_rnd_N|apply fmt_Zp; lia]. }
  destruct (sub_val (Add x exp2_c) exp2_c Fv Fc) as (A & B).
  { rewrite R. apply Rle_lt_trans with 101; [apply Rabs_le; lra|]. apply Rlt_le_trans with (p2 60); [lra|apply bpow_le; lia]. }
  split; [exact A|]. rewrite B. exact R.
Qed.
Lemma sub_near x y X Y ex ey B e : fin x -> fin y -> Rabs (val x - X) <= ex -> Rabs (val y - Y) <= ey -> Rabs (X - Y) <= B -> B + ex + ey <= p2 60 ->
  ex + ey + (B + ex + ey) * / 16000000 + / 1000000000000 <= e -> fin (Sub x y) /\ Rabs (val (Sub x y) - (X - Y)) <= e.
Proof.
  intros Fx Fy Hx Hy HB L He. assert (D : Rabs (val x - val y - (X - Y)) <= ex + ey). { replace (val x - val y - (X - Y)) with ((val x - X) + - (val y - Y)) by ring. eapply Rle_trans; [apply Rabs_triang|]. rewrite Rabs_Ropp. lra. }
  assert (A : Rabs (val x - val y) <= B + ex + ey). { replace (val x - val y) with ((X - Y) + (val x - val y - (X - Y))) by ring. eapply Rle_trans; [apply Rabs_triang|lra]. }
  destruct (rnd_near _ _ A L) as (R1 & R2). destruct (sub_val x y Fx Fy R1) as (F & V). split; [exact F|]. rewrite V.
  replace (rnd32 (val x - val y) - (X - Y)) with ((rnd32 (val x - val y) - (val x - val y)) + (val x - val y - (X - Y))) by ring. eapply Rle_trans; [apply Rabs_triang|lra].
Qed.

(** ** lc3_exp2f *)
Lemma exp2_near nan (x : f32) : fin x -> Rabs (val x) <= 100 ->
  fin (exp2_32 nan x) /\ Rabs (val (exp2_32 nan x) - Rpower 2 (val x)) <= 0.0000003 * Rpower 2 (val x).
Proof.
  intros F H. destruct (exp2_split nan x F H) as (n & Hn & Hy & Eb & Fs & Vs). unfold exp2_32. cbv zeta. fold exp2_c. rewrite Eb. clear Eb.
  set (y := val x - IZR n / 8) in *. assert (By := Rabs_le_inv _ _ Hy).
  assert (P60 : 1000000 <= p2 60) by (apply Rle_trans with (p2 20); [cbn; lra|apply bpow_le; lia]).
  assert (Z0 : forall z : f32, Rabs (val z - val z) <= 0) by (intros z; rewrite Rminus_diag_eq, Rabs_R0 by reflexivity; lra).
  destruct (sub_near x _ (val x) (IZR n / 8) 0 0 (/ 16) 0.000000004 F Fs (Z0 x) ltac:(rewrite Vs, Rminus_diag_eq, Rabs_R0 by reflexivity; lra) Hy ltac:(lra) ltac:(lra)) as (Fy & Cy).
  fold y in Cy. set (w := Sub x _) in *. clearbody w. clear Fs Vs.
  destruct (dy_near 42131 22 (IZR 42131 / 2 ^ 22) ltac:(lia) ltac:(lia) ltac:(cbn; lra)) as (F0 & C0).
  destruct (mul_near _ w _ y 0 _ 0.0101 (/ 16) 0.00000000009 F0 Fy C0 Cy ltac:(apply Rabs_le; lra) Hy ltac:(lra) ltac:(lra)) as (F1 & C1). clear F0 C0.
  assert (B1 : -0.00064 <= IZR 42131 / 2 ^ 22 * y <= 0.00064) by (split; lra).
  destruct (dy_near 3721611 26 (IZR 3721611 / 2 ^ 26) ltac:(lia) ltac:(lia) ltac:(cbn; lra)) as (F0 & C0).
  destruct (add_near _ _ _ _ _ _ 0.0562 0.0000000037 F1 F0 C1 C0 ltac:(apply Rabs_le; lra) ltac:(lra) ltac:(lra)) as (F2 & C2). clear F0 C0 F1 C1.
  set (X1 := IZR 42131 / 2 ^ 22 * y) in *.
  destruct (mul_near _ w _ y _ _ 0.0562 (/ 16) 0.00000000069 F2 Fy C2 Cy ltac:(apply Rabs_le; lra) Hy ltac:(lra) ltac:(lra)) as (F1 & C1). clear F2 C2.
  assert (B2 : -0.0036 <= (X1 + IZR 3721611 / 2 ^ 26) * y <= 0.0036) by (clearbody X1; split; nra).
  destruct (dy_near 16121479 26 (IZR 16121479 / 2 ^ 26) ltac:(lia) ltac:(lia) ltac:(cbn; lra)) as (F0 & C0).
  destruct (add_near _ _ _ _ _ _ 0.2439 0.000000016 F1 F0 C1 C0 ltac:(apply Rabs_le; lra) ltac:(lra) ltac:(lra)) as (F2 & C2). clear F0 C0 F1 C1.
  set (X2 := (X1 + IZR 3721611 / 2 ^ 26) * y) in *.
  destruct (mul_near _ w _ y _ _ 0.2439 (/ 16) 0.000000003 F2 Fy C2 Cy ltac:(apply Rabs_le; lra) Hy ltac:(lra) ltac:(lra)) as (F1 & C1). clear F2 C2.
  assert (B3 : -0.0153 <= (X2 + IZR 16121479 / 2 ^ 26) * y <= 0.0153) by (clearbody X2; split; nra).
  destruct (dy_near 11629079 24 (IZR 11629079 / 2 ^ 24) ltac:(lia) ltac:(lia) ltac:(cbn; lra)) as (F0 & C0).
  destruct (add_near _ _ _ _ _ _ 0.7085 0.000000048 F1 F0 C1 C0 ltac:(apply Rabs_le; lra) ltac:(lra) ltac:(lra)) as (F2 & C2). clear F0 C0 F1 C1.
  set (X3 := (X2 + IZR 16121479 / 2 ^ 26) * y) in *.
  destruct (mul_near _ w _ y _ _ 0.7085 (/ 16) 0.0000000087 F2 Fy C2 Cy ltac:(apply Rabs_le; lra) Hy ltac:(lra) ltac:(lra)) as (F1 & C1). clear F2 C2.
  assert (B4 : -0.0443 <= (X3 + IZR 11629079 / 2 ^ 24) * y <= 0.0443) by (clearbody X3; split; nra).
  destruct (dy_near 1 0 1 ltac:(lia) ltac:(lia) ltac:(cbn; lra)) as (F0 & C0).
  destruct (add_near _ _ _ _ _ _ 1.0443 0.000000075 F1 F0 C1 C0 ltac:(apply Rabs_le; lra) ltac:(lra) ltac:(lra)) as (F2 & C2). clear F0 C0 F1 C1.
  assert (EP : (X3 + IZR 11629079 / 2 ^ 24) * y + 1 = 1 + exp2_p y) by (unfold X3, X2, X1, exp2_p; ring). rewrite EP in C2.
  assert (BP : 0.9557 <= 1 + exp2_p y <= 1.0443) by lra. clear B1 B2 B3 B4 EP. clear X3 X2 X1.
  pose proof (exp2_p_ok y Hy) as EP. set (P := 1 + exp2_p y) in *. clearbody P.
  set (u := Add _ (f32_dy 1 0)) in *. clearbody u.
  (* the table *)
  assert (K8 : ((147 * 2 ^ 23 + 2 ^ 22 + n) mod 8 = n mod 8)%Z). { replace (147 * 2 ^ 23 + 2 ^ 22 + n)%Z with (n + (147 * 2 ^ 20 + 2 ^ 19) * 8)%Z by lia. apply Z.mod_add. lia. }
  rewrite K8. set (r := (n mod 8)%Z). assert (Hr : (0 <= r < 8)%Z) by (apply Z.mod_pos_bound; lia).
  destruct (exp2_tab r Hr) as (E & FE & CE & BE & ET). destruct (nth (Z.to_nat r) exp2_e (1, 0)%Z) as (m & s). cbn [fst snd] in FE, CE.
  assert (TP : 0 < exp2_T r) by apply exp_pos. set (T := exp2_T r) in *.
  destruct (mul_near u _ P E _ 0 1.0443 E (E * 0.000000142) F2 FE C2 CE ltac:(apply Rabs_le; lra) ltac:(rewrite Rabs_pos_eq; lra) ltac:(lra) ltac:(lra)) as (Fz & Cz).
  set (z := Mul u _) in *. clearbody z. clear F2 C2 FE CE u.
  (* the exponent *)
  apply Rabs_le_inv in Cz. assert (BPE : 0.9557 <= P * E <= 1.9155) by (split; nra).
  destruct (bits_normal nan z Fz) as (e & f & He & Hf & Eb & Ev).
  { apply Rle_trans with (/ 2); [change (/ 2) with (p2 (-1)); apply bpow_le; lia|lra]. }
  assert (Bf : 0 <= IZR f <= 8388607) by (split; apply IZR_le; lia).
  assert (EE : (126 <= e <= 127)%Z).
  { split; apply Z.nlt_ge; intros C.
    - assert (p2 (e - 127) <= p2 (-2)) by (apply bpow_le; lia). change (p2 (-2)) with (/ 4) in *. assert (0 < p2 (e - 127)) by apply bpow_gt_0. nra.
    - assert (p2 1 <= p2 (e - 127)) by (apply bpow_le; lia). change (p2 1) with 2 in *. nra. }
  assert (Dn : (n = 8 * (n / 8) + r)%Z) by (apply Z.div_mod; lia). set (q := (n / 8)%Z) in *. assert (Hq : (-101 <= q <= 101)%Z) by lia.
  assert (EK : ((f32_bits nan z + (147 * 2 ^ 23 + 2 ^ 22 + n) / 8 * 2 ^ 23) mod 2 ^ 32 = (e + q) * 2 ^ 23 + f)%Z).
  { replace ((147 * 2 ^ 23 + 2 ^ 22 + n) / 8)%Z with (147 * 2 ^ 20 + 2 ^ 19 + q)%Z.
    - rewrite Eb. replace (e * 2 ^ 23 + f + (147 * 2 ^ 20 + 2 ^ 19 + q) * 2 ^ 23)%Z with ((e + q) * 2 ^ 23 + f + (147 * 2 ^ 11 + 2 ^ 10) * 2 ^ 32)%Z by lia. rewrite Z.mod_add by lia. apply Z.mod_small. lia.
    - replace (147 * 2 ^ 23 + 2 ^ 22 + n)%Z with (n + (147 * 2 ^ 20 + 2 ^ 19) * 8)%Z by lia. rewrite Z.div_add by lia. fold q. lia. }
  rewrite EK. destruct (bits_inv (e + q) f ltac:(lia) Hf) as (FF & VF). split; [exact FF|]. rewrite VF.
  replace ((1 + IZR f / 2 ^ 23) * p2 (e + q - 127)) with (val z * p2 q) by (rewrite Ev; replace (e + q - 127)%Z with (e - 127 + q)%Z by lia; rewrite bpow_plus; ring).
  assert (EX : Rpower 2 (val x) = T * Rpower 2 y * p2 q).
  { replace (val x) with (IZR r / 8 + y + IZR q) by (unfold y; rewrite Dn, plus_IZR, mult_IZR; field). rewrite !Rpower_plus. fold T. f_equal. unfold Rpower. rewrite bpow_exp. reflexivity. }
  rewrite EX. assert (Q := bpow_gt_0 radix2 q). replace (val z * p2 q - T * Rpower 2 y * p2 q) with ((val z - T * Rpower 2 y) * p2 q) by ring. rewrite Rabs_mult, (Rabs_pos_eq (p2 q)) by lra.
  rewrite <- Rmult_assoc. apply Rmult_le_compat_r; [lra|]. set (Y := Rpower 2 y) in *. clearbody Y T. apply Rabs_le_inv in EP. apply Rabs_le_inv in ET. clear - Cz EP ET BE BP TP.
  set (v := val z) in *. clearbody v.
  assert (HZ : Rabs (v - T * Y) <= T * 0.00000024).
  { assert (ET2 : E <= 1.00000004 * T) by lra. assert (A : Rabs (v - P * E) <= T * 0.000000143) by (apply Rabs_le; lra).
    assert (B : Rabs (P * E - P * T) <= T * 0.000000035). { replace (P * E - P * T) with (P * (E - T)) by ring. rewrite Rabs_mult, (Rabs_pos_eq P) by lra. assert (Rabs (E - T) <= 0.000000033 * T) by (apply Rabs_le; lra). pose proof (Rabs_pos (E - T)). nra. }
    assert (D : Rabs (P * T - T * Y) <= T * 0.00000005). { replace (P * T - T * Y) with (T * (P - Y)) by ring. rewrite Rabs_mult, (Rabs_pos_eq T) by lra. apply Rmult_le_compat_l; [lra|apply Rabs_le; lra]. }
    replace (v - T * Y) with ((v - P * E) + (P * E - P * T) + (P * T - T * Y)) by ring. eapply Rle_trans; [apply Rabs_triang|]. eapply Rle_trans; [apply Rplus_le_compat_r, Rabs_triang|]. lra. }
  eapply Rle_trans; [exact HZ|]. nra.
Qed.
