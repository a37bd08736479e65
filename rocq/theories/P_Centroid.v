(** * C37: the centroid of the spectrum and the noise floor of the high resolution modes *)
From Coq Require Import Reals ZArith List Bool Lia Lra ZifyBool.
From Flocq Require Import Core.Core IEEE754.BinarySingleNaN.
From Verif Require Import Base BaseProofs ConfigModel FloatModel GainModel GainProofs GainFloat FloatOps FloatLaws F32Model F32Proofs SnsProject SpecEncModel SpecEncFloat SpecEncProofs GainFloor.
Import ListNotations.
Local Open Scope R_scope.

(** The sum of the magnitudes, and of the magnitudes times the indexes, from [i]. *)
Fixpoint abs_sum (x : list f32) : R := match x with [] => 0 | v :: r => Rabs (B2R v) + abs_sum r end.
Fixpoint moment (i : Z) (x : list f32) : R := match x with [] => 0 | v :: r => Rabs (B2R v) * IZR i + moment (i + 1) r end.

Lemma acc_step n m M t tv : fin m -> fin tv -> / 100000 <= M -> 0 <= t -> M + t <= p2 60 -> 0 <= IZR n <= 1000 ->
  Rabs (val m - M) <= 4 * IZR n * ru * M -> Rabs (val tv - t) <= ru * t + rt ->
  fin (Add m tv) /\ Rabs (val (Add m tv) - (M + t)) <= 4 * IZR (n + 1) * ru * (M + t).
Proof.
  intros Fm Ft Hm Ht Hs Hn Em Et. pose proof ru_b as (U0 & U). pose proof rt_small as (R0 & R1).
  assert (R2 : rt <= ru * / 1000000).
  { eapply Rle_trans; [exact R1|]. replace (p2 (-100)) with (p2 (-24) * p2 (-76)) by (rewrite <- bpow_plus; reflexivity). fold ru. apply Rmult_le_compat_l; [lra|]. apply Rle_trans with (p2 (-20)); [apply bpow_le; lia|cbn; lra]. }
  assert (R3 : rt <= / 10 * (ru * (M + t))).
  { eapply Rle_trans; [exact R2|]. assert (ru * / 100000 <= ru * (M + t)) by (apply Rmult_le_compat_l; lra). lra. }
  set (S := M + t) in *. assert (0 < S) by (unfold S; lra).
  assert (E1 : 4 * IZR n * ru * M <= 4 * IZR n * ru * S) by (apply Rmult_le_compat_l; [|unfold S; lra]; apply Rmult_le_pos; lra).
  assert (E2 : ru * t <= ru * S) by (apply Rmult_le_compat_l; unfold S; lra).
  assert (E0 : 4 * IZR n * ru * S <= / 4 * S). { apply Rmult_le_compat_r; [lra|]. apply Rle_trans with (4 * 1000 * ru); [apply Rmult_le_compat_r; lra|lra]. }
  assert (E3 : ru * S <= / 100 * S) by (apply Rmult_le_compat_r; lra).
  assert (D : Rabs (val m + val tv - S) <= 4 * IZR n * ru * S + 11 / 10 * (ru * S)).
  { replace (val m + val tv - S) with ((val m - M) + (val tv - t)) by (unfold S; ring). eapply Rle_trans; [apply Rabs_triang|]. lra. }
  assert (B : Rabs (val m + val tv) <= 3 / 2 * S). { apply Rabs_le_inv in D. apply Rabs_le. lra. }
  assert (O : Rabs (rnd32 (val m + val tv)) < p2 128).
  { apply (rnd_bnd _ 3 59); [unfold kok; lia|]. eapply Rle_trans; [exact B|]. replace (p2 60) with (2 * p2 59) in Hs by (change 60%Z with (1 + 59)%Z; rewrite bpow_plus; reflexivity). lra. }
  destruct (add_val m tv Fm Ft O) as (Fa & Va). split; [exact Fa|]. rewrite Va, plus_IZR.
  pose proof (rnd_err (val m + val tv)) as R. assert (R' : ru * Rabs (val m + val tv) <= ru * (3 / 2 * S)) by (apply Rmult_le_compat_l; lra).
  apply Rabs_le_inv in R, D. apply Rabs_le. replace (4 * (IZR n + 1) * ru * S) with (4 * IZR n * ru * S + 4 * (ru * S)) by ring. lra.
Qed.

Lemma centroid_err : forall x i k m0 m1 n M0 M1, Forall (fun v => fin v /\ Rabs (val v) <= x_bound) x -> fin k -> val k = IZR i -> (0 <= i)%Z -> (i + zlen x <= 960)%Z ->
  (0 <= n)%Z -> (n + zlen x <= 1000)%Z -> fin m0 -> fin m1 -> / 100000 <= M0 -> / 100000 <= M1 -> M0 + IZR (zlen x) * p2 31 <= p2 60 -> M1 + IZR (zlen x) * p2 31 <= p2 60 ->
  Rabs (val m0 - M0) <= 4 * IZR n * ru * M0 -> Rabs (val m1 - M1) <= 4 * IZR n * ru * M1 ->
  let '(r0, r1) := centroid k m0 m1 x in fin r0 /\ fin r1 /\
    Rabs (val r0 - (M0 + abs_sum x)) <= 4 * IZR (n + zlen x) * ru * (M0 + abs_sum x) /\
    Rabs (val r1 - (M1 + moment i x)) <= 4 * IZR (n + zlen x) * ru * (M1 + moment i x).
Proof.
  induction x as [|v x IH]; intros i k m0 m1 n M0 M1 H Fk Vk Hi Hl Hn Hnl F0 F1 L0 L1 S0 S1 E0 E1; cbn [centroid abs_sum moment].
  - replace (n + zlen (@nil f32))%Z with n by (unfold zlen; cbn [length]; lia). rewrite !Rplus_0_r. auto.
  - inversion H as [|? ? (Fv & Bv) Hx]; subst. replace (zlen (v :: x)) with (zlen x + 1)%Z in * by (unfold zlen; cbn [length]; lia). assert (0 <= zlen x)%Z by (unfold zlen; lia).
    assert (Fa : fin (Babs v) /\ val (Babs v) = Rabs (val v)) by (split; [unfold fin; rewrite is_finite_Babs; exact Fv|apply B2R_Babs]). destruct Fa as (Fa & Va). pose proof (Rabs_pos (val v)) as Pv.
    assert (Ik : 0 <= IZR i <= 960) by (split; apply IZR_le; lia). assert (In : 0 <= IZR n <= 1000) by (split; apply IZR_le; lia).
    pose proof ru_b as (U0 & _). pose proof rt_small as (R0 & _). rewrite plus_IZR in S0, S1. assert (Z0 : 0 <= IZR (zlen x) * p2 31) by (apply Rmult_le_pos; [apply IZR_le; lia|apply bpow_ge_0]).
    assert (P31 : x_bound * 960 <= p2 31) by (unfold x_bound; cbn; lra). assert (P100 : p2 31 <= p2 100) by (apply bpow_le; lia). assert (X0 : 0 <= x_bound) by (unfold x_bound; lra).
    assert (T : Rabs (val v) * IZR i <= x_bound * 960) by (apply Rmult_le_compat; lra). assert (T0 : 0 <= Rabs (val v) * IZR i) by (apply Rmult_le_pos; lra).
    destruct (mul_err (Babs v) k (p2 31) Fa Fk) as (Fm & Em); [rewrite Va, Vk, Rabs_Rabsolu, (Rabs_pos_eq (IZR i)) by lra; lra|exact P100|]. rewrite Va, Vk, Rabs_Rabsolu, (Rabs_pos_eq (IZR i)) in Em by lra.
    destruct (acc_step n m0 M0 (Rabs (val v)) (Babs v) F0 Fa L0 Pv) as (G0 & D0); [lra|exact In|exact E0|rewrite Va; unfold Rminus; rewrite Rplus_opp_r, Rabs_R0; assert (0 <= ru * Rabs (val v)) by (apply Rmult_le_pos; lra); lra|].
    destruct (acc_step n m1 M1 (Rabs (val v) * IZR i) (Mul (Babs v) k) F1 Fm L1 T0) as (G1 & D1); [lra|exact In|exact E1|exact Em|].
    assert (Nk : fin (Add k (f32_dy 1 0)) /\ val (Add k (f32_dy 1 0)) = IZR (i + 1)).
    { destruct (dy_exact 1 0 ltac:(lia) ltac:(lia)) as (Fo & Vo). assert (Vo1 : val (f32_dy 1 0) = 1) by (rewrite Vo; cbn; ring).
      assert (R : rnd32 (val k + val (f32_dy 1 0)) = IZR (i + 1)). { rewrite Vk, Vo1, plus_IZR. apply round_generic; [typeclasses eauto|]. rewrite <- plus_IZR. replace (IZR (i + 1)) with (IZR (i + 1) * p2 0) by (cbn; ring). apply fmt_Zp; lia. }
      destruct (add_val k (f32_dy 1 0) Fk Fo) as (A & B); [rewrite R; rewrite Rabs_pos_eq by (apply IZR_le; lia); apply Rle_lt_trans with (p2 10); [apply Rle_trans with (IZR 960); [apply IZR_le; lia|cbn; lra]|apply bpow_lt; lia]|].
      split; [exact A|]. rewrite B. exact R. }
    destruct Nk as (Fn & Vn).
    specialize (IH (i + 1)%Z _ _ _ (n + 1)%Z (M0 + Rabs (val v)) (M1 + Rabs (val v) * IZR i) Hx Fn Vn ltac:(lia) ltac:(lia) ltac:(lia) ltac:(lia) G0 G1 ltac:(lra) ltac:(lra) ltac:(lra) ltac:(lra) D0 D1).
    destruct (centroid _ _ _ x) as [r0 r1]. fold (val v). replace (n + (zlen x + 1))%Z with (n + 1 + zlen x)%Z by lia. rewrite <- !Rplus_assoc. exact IH.
Qed.

Lemma abs_sum_pos x : 0 <= abs_sum x.
Proof. induction x as [|v x IH]; cbn [abs_sum]; [lra|]. pose proof (Rabs_pos (B2R v)). lra. Qed.
Lemma moment_pos : forall x i, (0 <= i)%Z -> 0 <= moment i x.
Proof. induction x as [|v x IH]; intros i Hi; cbn [moment]; [lra|]. specialize (IH (i + 1)%Z ltac:(lia)). assert (0 <= Rabs (B2R v) * IZR i) by (apply Rmult_le_pos; [apply Rabs_pos|apply IZR_le; exact Hi]). lra. Qed.
Lemma abs_sum_le x : Forall (fun v : f32 => fin v /\ Rabs (val v) <= x_bound) x -> abs_sum x <= x_bound * IZR (zlen x).
Proof.
  induction 1 as [|v x (_ & B) _ IH]; cbn [abs_sum]; [unfold zlen; cbn; lra|]. fold (val v). replace (zlen (v :: x)) with (zlen x + 1)%Z by (unfold zlen; cbn [length]; lia). rewrite plus_IZR. lra.
Qed.

Lemma round_near (q : f32) : fin q -> 0 <= val q -> exists z, Rabs (IZR z - val q) <= / 2 /\ (0 <= z)%Z /\ f32_round q = F32Model.f32_int z.
Proof.
  intros F P. destruct (units_ok q F) as (u & Eu & Vu & _). unfold f32_round. rewrite Eu. cbn [bind].
  assert (O : IZR one = p2 149) by (change one with (Zpower radix2 149); apply IZR_Zpower; lia). assert (P1 : 0 < p2 149) by apply bpow_gt_0. assert (O1 : (0 < one)%Z) by reflexivity.
  assert (U : (0 <= u)%Z) by (apply le_IZR; rewrite Vu; apply Rmult_le_pos; lra).
  set (z := ((2 * u + one) / (2 * one))%Z). assert (Hz : (2 * one * z <= 2 * u + one < 2 * one * z + 2 * one)%Z).
  { unfold z. pose proof (Z.div_mod (2 * u + one) (2 * one) ltac:(lia)). pose proof (Z.mod_pos_bound (2 * u + one) (2 * one) ltac:(lia)). lia. }
  assert (Z0 : (0 <= z)%Z) by (unfold z; apply Z.div_pos; lia).
  assert (Ez : (Z.sgn u * ((2 * Z.abs u + one) / (2 * one)) = z)%Z).
  { rewrite Z.abs_eq by exact U. fold z. destruct (Z.eq_dec u 0) as [->|N]; [|replace (Z.sgn u) with 1%Z by lia; lia]. change (Z.sgn 0) with 0%Z. nia. }
  rewrite Ez. exists z. split; [|split; [exact Z0|reflexivity]].
  clearbody z. destruct Hz as (H1 & H2). apply IZR_le in H1. apply IZR_lt in H2. rewrite !plus_IZR, !mult_IZR, O in *. rewrite Vu in *. set (p := p2 149) in *. clearbody p. apply Rabs_le. split; apply Rmult_le_reg_r with p; try exact P1; lra.
Qed.

(** The count of low bits follows the centroid: with [r] 8/5 of the sum of the magnitudes over the sum of the
    magnitudes times the indexes (both with 1/100000 added) and the duration, it is
    [8 - min(m, 8)], where [m] is an integer nearest to [r], to [r / 1000]. The
    conversion to an [int] is undefined only when [r] is over 2145000000. *)
Theorem C37_centroid dt x :
  (0 <= dt <= 3)%Z -> (zlen x <= 960)%Z -> Forall (fun v : f32 => is_finite v = true /\ Rabs (B2R v) <= 1480000) x ->
  let r := 8 / 5 * (/ 100000 + abs_sum x) / (IZR (1 + dt) * (/ 100000 + moment 0 x)) in
  (low_bits dt x = None -> 2145000000 <= r) /\
  (forall low, low_bits dt x = Some low -> exists m, low = (8 - Z.min m 8)%Z /\ (0 <= m <= INT_MAX)%Z /\ Rabs (IZR m - r) <= 501 / 1000 + r / 1000).
Proof.
  intros Hd Hl H. cbv zeta. change (Forall (fun v : f32 => fin v /\ Rabs (val v) <= x_bound) x) in H.
  set (M0 := / 100000 + abs_sum x). set (M1 := / 100000 + moment 0 x). pose proof (abs_sum_pos x) as A0. pose proof (moment_pos x 0 ltac:(lia)) as A1. pose proof (abs_sum_le x H) as A2.
  assert (0 <= zlen x)%Z by (unfold zlen; lia). assert (Zl : 0 <= IZR (zlen x) <= 960) by (split; apply IZR_le; lia).
  unfold low_bits. cbv zeta. destruct (dy_exact 2748779 38 ltac:(lia) ltac:(lia)) as (F5 & V5). set (e5 := f32_dy 2748779 38) in *.
  assert (E5 : val e5 = 2748779 / 274877906944) by (rewrite V5; cbn; lra). clearbody e5.
  pose proof ru_b as (U0 & U). pose proof rt_small as (R0 & R1). pose proof p2_100 as R2.
  assert (I5 : Rabs (val e5 - / 100000) <= 4 * IZR 1 * ru * / 100000) by (rewrite E5, ru_eq; apply Rabs_le; lra).
  assert (S5 : / 100000 + IZR (zlen x) * p2 31 <= p2 60). { apply Rle_trans with (1 + 960 * p2 31); [|cbn; lra]. apply Rplus_le_compat; [lra|]. apply Rmult_le_compat_r; [apply bpow_ge_0|lra]. }
  pose proof (centroid_err x 0 c0 e5 e5 1 (/ 100000) (/ 100000) H eq_refl eq_refl ltac:(lia) ltac:(lia) ltac:(lia) ltac:(lia) F5 F5 ltac:(lra) ltac:(lra) S5 S5 I5 I5) as C.
  destruct (centroid c0 e5 e5 x) as [m0 m1]. destruct C as (F0 & F1 & C0 & C1). fold M0 in C0. fold M1 in C1.
  assert (L0 : / 100000 <= M0 <= 2000000000) by (unfold M0; unfold x_bound in A2; lra). assert (L1 : / 100000 <= M1) by (unfold M1; lra).
  assert (K : 4 * IZR (1 + zlen x) * ru <= 25 / 100000). { rewrite plus_IZR. apply Rle_trans with (4 * (1 + 960) * / 16000000); [apply Rmult_le_compat; lra|lra]. }
  assert (D0 : Rabs (val m0 - M0) <= 25 / 100000 * M0) by (eapply Rle_trans; [exact C0|]; apply Rmult_le_compat_r; lra).
  assert (D1 : Rabs (val m1 - M1) <= 25 / 100000 * M1) by (eapply Rle_trans; [exact C1|]; apply Rmult_le_compat_r; lra). clear C0 C1 K.
  assert (LM : M1 <= 2000000000000).
  { unfold M1. assert (Q : forall y i, Forall (fun v : f32 => fin v /\ Rabs (val v) <= x_bound) y -> (0 <= i)%Z -> (i + zlen y <= 960)%Z -> moment i y <= x_bound * 960 * IZR (zlen y)).
    { clear. induction y as [|v y IH]; intros i Hy Hi Hl; cbn [moment]; [unfold zlen; cbn; lra|]. inversion Hy as [|? ? (_ & B) Hy']; subst. replace (zlen (v :: y)) with (zlen y + 1)%Z in * by (unfold zlen; cbn [length]; lia). assert (0 <= zlen y)%Z by (unfold zlen; lia).
      specialize (IH (i + 1)%Z Hy' ltac:(lia) ltac:(lia)). rewrite plus_IZR. fold (val v). assert (Rabs (val v) * IZR i <= x_bound * 960); [|lra]. apply Rmult_le_compat; [apply Rabs_pos|apply IZR_le; lia|exact B|apply IZR_le; lia]. }
    specialize (Q x 0%Z H ltac:(lia) ltac:(lia)). unfold x_bound in Q. lra. }
  clearbody M0 M1. clear A0 A1 A2 I5 S5 E5 V5 F5.
  apply Rabs_le_inv in D0, D1.
  destruct (dy_exact 13421773 23 ltac:(lia) ltac:(lia)) as (Fs & Vs). assert (V16 : val (f32_dy 13421773 23) = 13421773 / 8388608) by (rewrite Vs; cbn; lra). destruct (of_int_ok (1 + dt) ltac:(lia)) as (Fi & Vi).
  assert (I1 : 1 <= IZR (1 + dt) <= 4) by (split; apply IZR_le; lia). set (w := IZR (1 + dt)) in *. clearbody w.
  assert (P100 : 10000000000000 <= p2 100) by (apply Rle_trans with (p2 60); [cbn; lra|apply bpow_le; lia]).
  destruct (mul_err (f32_dy 13421773 23) m0 5000000000 Fs F0) as (Fn & En); [rewrite V16, !Rabs_pos_eq by lra; lra|lra|]. rewrite V16, !(Rabs_pos_eq (13421773 / 8388608)), (Rabs_pos_eq (val m0)) in En by lra.
  destruct (mul_err (f32_of_int (1 + dt)) m1 9000000000000 Fi F1) as (Fd & Ed); [rewrite Vi, !Rabs_pos_eq by lra; nra|lra|]. rewrite Vi, (Rabs_pos_eq w), (Rabs_pos_eq (val m1)) in Ed by lra.
  set (n := Mul (f32_dy 13421773 23) m0) in *. set (d := Mul (f32_of_int (1 + dt)) m1) in *. clearbody n d.
  assert (R3 : rt <= ru * / 1000000).
  { eapply Rle_trans; [exact R1|]. replace (p2 (-100)) with (p2 (-24) * p2 (-76)) by (rewrite <- bpow_plus; reflexivity). fold ru. apply Rmult_le_compat_l; [lra|]. apply Rle_trans with (p2 (-20)); [apply bpow_le; lia|cbn; lra]. }
  assert (N : Rabs (val n - 8 / 5 * M0) <= 26 / 100000 * (8 / 5 * M0)).
  { assert (ru * (13421773 / 8388608 * val m0) <= / 16000000 * (13421773 / 8388608 * val m0)) by (apply Rmult_le_compat_r; lra). apply Rabs_le_inv in En. apply Rabs_le. lra. }
  assert (W : / 100000 <= w * M1) by nra. assert (W1 : Rabs (w * val m1 - w * M1) <= 25 / 100000 * (w * M1)) by (apply Rabs_le; nra).
  assert (D : Rabs (val d - w * M1) <= 26 / 100000 * (w * M1)).
  { apply Rabs_le_inv in W1. assert (ru * (w * val m1) <= / 16000000 * (w * val m1)) by (apply Rmult_le_compat_r; lra). apply Rabs_le_inv in Ed. apply Rabs_le. lra. }
  clear En Ed W1. set (A := 8 / 5 * M0) in *. assert (HA : 0 < A <= 3200000000) by (unfold A; lra). set (B := w * M1) in *. clearbody A B.
  assert (HB : 0 < B) by lra. set (r := A / B). assert (rB : r * B = A) by (unfold r; field; lra).
  assert (Hr : 0 < r) by (unfold r; apply Rmult_lt_0_compat; [lra|apply Rinv_0_lt_compat; lra]).
  assert (Hr2 : r <= 400000000000000). { apply Rmult_le_reg_r with B; [lra|]. rewrite rB. nra. }
  apply Rabs_le_inv in N, D. assert (Pd : 0 < val d) by lra.
  set (q0 := val n / val d). assert (qd : q0 * val d = val n) by (unfold q0; field; lra).
  assert (Q : Rabs (q0 - r) <= 6 / 10000 * r).
  { assert (rd : r * val d <= r * (B * (1 + 26 / 100000)) /\ r * (B * (1 - 26 / 100000)) <= r * val d) by (split; apply Rmult_le_compat_l; lra).
    replace (r * (B * (1 + 26 / 100000))) with (A * (1 + 26 / 100000)) in rd by (rewrite <- rB; ring). replace (r * (B * (1 - 26 / 100000))) with (A * (1 - 26 / 100000)) in rd by (rewrite <- rB; ring).
    apply Rabs_le. split; apply Rmult_le_reg_r with (val d); try exact Pd; rewrite Rmult_minus_distr_r, qd; lra. }
  apply Rabs_le_inv in Q. assert (Q0 : 0 < q0) by lra.
  assert (G : Rabs (rnd32 (val n / val d)) < p2 128). { apply (rnd_bnd _ 1 60); [unfold kok; lia|]. fold q0. rewrite Rabs_pos_eq by lra. apply Rle_trans with 500000000000000; [lra|cbn; lra]. }
  assert (Fq : fin (Div n d) /\ val (Div n d) = rnd32 q0).
  { split; [|apply (div_val n d Fn ltac:(lra) G)]. apply (div_val n d Fn ltac:(lra) G). }
  destruct Fq as (Fq & Vq). set (q := Div n d) in *. clearbody q. pose proof (rnd_err q0) as E. rewrite <- Vq, (Rabs_pos_eq q0) in E by lra.
  assert (Eq : Rabs (val q - r) <= 7 / 10000 * r + / 10000).
  { assert (ru * q0 <= / 16000000 * q0) by (apply Rmult_le_compat_r; lra). apply Rabs_le_inv in E. apply Rabs_le. lra. }
  assert (Pq : 0 <= val q) by (rewrite Vq; apply SnsProject.rnd_pos; lra).
  destruct (round_near q Fq Pq) as (z & Nz & Z0 & ->). apply Rabs_le_inv in Eq, Nz. unfold F32Model.f32_int.
  destruct (Z_lt_le_dec z (2 ^ 31)) as [Lz|Lz].
  - replace ((-2 ^ 31 <=? z) && (z <? 2 ^ 31))%Z with true by lia. cbn [bind]. unfold cint. assert (INT_MAX = 2 ^ 31 - 1)%Z by reflexivity.
    replace (_ && _)%bool with true by (symmetry; unfold INT_MIN, INT_MAX in *; pose proof (Z.min_spec z 8); lia).
    split; [discriminate|]. intros low El. exists z. split; [congruence|]. split; [lia|]. apply Rabs_le. lra.
  - replace ((-2 ^ 31 <=? z) && (z <? 2 ^ 31))%Z with false by lia. cbn [bind]. split; [|discriminate]. intros _. change (2 ^ 31)%Z with 2147483648%Z in Lz. apply IZR_le in Lz. lra.
Qed.
Print Assumptions C37_centroid.

(** 2.5 ms: the energy in the first coefficient gives no low bit, in the second one 6 of them
    (8/5 is near 2), and 8 for a flat spectrum. *)
Example C37_centroid_example :
  low_bits 0 (f32_of_int 500 :: repeat c0 119) = Some 0%Z /\ low_bits 0 (c0 :: f32_of_int 500 :: repeat c0 118) = Some 6%Z /\
  low_bits 0 (repeat (f32_of_int 500) 120) = Some 8%Z /\ moment 0 [c0; f32_of_int 500] = 500.
Proof.
  split; [vm_compute; reflexivity|]. split; [vm_compute; reflexivity|]. split; [vm_compute; reflexivity|]. cbn [moment]. destruct (of_int_ok 500 ltac:(lia)) as (_ & V). unfold val in V.
  change (B2R c0) with 0. rewrite V, Rabs_R0, (Rabs_pos_eq 500) by lra. change (0 + 1)%Z with 1%Z. lra.
Qed.

(** The regulation of the noise floor: a bit for 12500 bit/s, with an offset of -6 in frames of 2.5 ms, of 5 in frames of
    10 ms (2 at 48 kHz), in the limits of 6 and 23 bits. *)
Theorem C37_regulation_bits dt sr nbytes : (0 <= dt <= 3)%Z -> (5 <= sr < 7)%Z -> (0 <= nbytes)%Z ->
  let rate := IZR nbytes * 8 / (IZR (1 + dt) * / 400) in
  let offset := match dt, sr with 0, _ => -6 | 3, 5 => 2 | 3, _ => 5 | _, _ => 0 end%Z in
  exists k, IZR k <= rate / 12500 < IZR k + 1 /\ reg_bits dt sr nbytes = Z.max 6 (Z.min (k + offset) 23).
Proof.
  intros Hd Hs Hn. cbv zeta. exists ((8 * nbytes * 4) / (125 * (1 + dt)))%Z. split.
  - pose proof (Z.div_mod (8 * nbytes * 4) (125 * (1 + dt)) ltac:(lia)) as D. pose proof (Z.mod_pos_bound (8 * nbytes * 4) (125 * (1 + dt)) ltac:(lia)) as M.
    set (k := ((8 * nbytes * 4) / (125 * (1 + dt)))%Z) in *. clearbody k. assert (L1 : (125 * (1 + dt) * k <= 32 * nbytes)%Z) by lia. assert (L2 : (32 * nbytes < 125 * (1 + dt) * (k + 1))%Z) by lia.
    apply IZR_le in L1. apply IZR_lt in L2. rewrite (mult_IZR _ k), (mult_IZR 125), (mult_IZR 32) in L1. rewrite (mult_IZR _ (k + 1)), (mult_IZR 125), (mult_IZR 32), (plus_IZR k) in L2. assert (W : 0 < IZR (1 + dt)) by (apply IZR_lt; lia).
    set (w := IZR (1 + dt)) in *. clearbody w. replace (IZR nbytes * 8 / (w * / 400) / 12500) with (32 * IZR nbytes / (125 * w)) by (field; lra).
    split; [apply Rmult_le_reg_r with (125 * w)|apply Rmult_lt_reg_r with (125 * w)]; try lra; replace (32 * IZR nbytes / (125 * w) * (125 * w)) with (32 * IZR nbytes) by (field; lra); lra.
  - assert (A : (dt = 0 \/ dt = 1 \/ dt = 2 \/ dt = 3)%Z) by lia. assert (B : (sr = 5 \/ sr = 6)%Z) by lia. unfold reg_bits, clip.
    destruct A as [-> | [-> | [-> | ->]]]; destruct B as [-> | ->]; cbn [Z.eqb Pos.eqb DT_2M5 DT_10M SRATE_48K_HR];
      match goal with |- context [Z.div ?a ?b] => set (k := Z.div a b); clearbody k end; try reflexivity; lia.
Qed.
Print Assumptions C37_regulation_bits.

(** 10 ms at 48 kHz and 150 bytes: 120000 bit/s, 9.6 bits. *)
Example C37_regulation_bits_example : reg_bits 3 5 150 = 11%Z /\ reg_bits 3 6 150 = 14%Z /\ reg_bits 0 5 20 = 6%Z /\ reg_bits 3 5 625 = 23%Z.
Proof. repeat split. Qed.
