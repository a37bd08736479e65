(** * Analysis of the spectrum in binary32: units, rounding errors, gains, energies *)
From Coq Require Import Reals ZArith List Bool Lia Lra ZifyBool.
From Flocq Require Import Core.Core IEEE754.BinarySingleNaN Relative.
From Verif Require Import Base BaseProofs ConfigModel FloatModel FloatProofs PcmProofs GainModel GainProofs GainFloat FloatOps FloatLaws F32Model F32Proofs SnsProject SpecEncModel.
Import ListNotations.
Local Open Scope R_scope.

(** ** Units *)
Lemma units_ok (x : f32) : fin x -> exists u, f32_units x = Some u /\ IZR u = val x * p2 149 /\ is_f32 u.
Proof.
  intros F. destruct x as [s|s| |s m e Hb]; try discriminate F.
  - exists 0%Z. split; [reflexivity|]. split; [cbn; ring|reflexivity].
  - cbn [f32_units]. eexists. split; [reflexivity|].
    assert (B : (Z.pos m < 2 ^ 24)%Z /\ (-149 <= e)%Z).
    { pose proof Hb as Hb2. unfold SpecFloat.bounded in Hb2. apply andb_prop in Hb2. destruct Hb2 as (C & D).
      unfold SpecFloat.canonical_mantissa, SpecFloat.fexp, SpecFloat.emin in C. apply Zeq_bool_eq in C. rewrite Digits.Zpos_digits2_pos in C.
      change (3 - 128 - 24)%Z with (-149)%Z in C. split; [|lia].
      apply (Digits.Zpower_gt_Zdigits radix2 24 (Z.pos m)). lia. }
    split.
    + unfold val. cbn [B2R]. unfold F2R. cbn [Fnum Fexp]. rewrite mult_IZR.
      change (2 ^ (e + 149))%Z with (Zpower radix2 (e + 149)). rewrite IZR_Zpower by lia. rewrite bpow_plus. destruct s; cbn [cond_Zopp]; ring.
    + apply PcmProofs.f32_int; [lia|]. destruct s; lia.
Qed.
Lemma units_inv (x : f32) u : f32_units x = Some u -> fin x.
Proof. destruct x; cbn; intros H; try discriminate H; reflexivity. Qed.

(** ** Rounding errors *)
Definition ru : R := p2 (-24).
Definition rt : R := p2 (-150).
Lemma rnd_err r : Rabs (rnd32 r - r) <= ru * Rabs r + rt.
Proof.
  destruct (error_N_FLT radix2 (-149) 24 ltac:(reflexivity) (fun x => negb (Z.even x)) r) as (eps & eta & A & B & _ & C).
  change (round radix2 (FLT_exp (-149) 24) ZnearestE r) with (rnd32 r) in C.
  rewrite C. replace (r * (1 + eps) + eta - r) with (eps * r + eta) by ring. eapply Rle_trans; [apply Rabs_triang|]. rewrite Rabs_mult.
  apply Rplus_le_compat.
  - apply Rmult_le_compat_r; [apply Rabs_pos|]. eapply Rle_trans; [exact A|]. right. unfold ru. cbn. lra.
  - eapply Rle_trans; [exact B|]. right. unfold rt. cbn. lra.
Qed.
Lemma ru_eq : ru = / 2 ^ 24. Proof. unfold ru. cbn. lra. Qed.
Lemma p2_pow n : p2 (- Z.of_nat n) = / 2 ^ n.
Proof. rewrite bpow_opp, <- IZR_Zpower by lia. f_equal. change (Zpower radix2 (Z.of_nat n)) with (2 ^ Z.of_nat n)%Z. rewrite <- pow_IZR. reflexivity. Qed.
Lemma rt_small : 0 < rt <= p2 (-100).
Proof. split; [apply bpow_gt_0|apply bpow_le; lia]. Qed.
Lemma p2_100 : p2 (-100) <= / 1000000000000.
Proof. apply Rle_trans with (p2 (-40)); [apply bpow_le; lia|]. cbn. lra. Qed.

Lemma mul_err x y B : fin x -> fin y -> Rabs (val x) * Rabs (val y) <= B -> B <= p2 100 ->
  fin (Mul x y) /\ Rabs (val (Mul x y) - val x * val y) <= ru * (Rabs (val x) * Rabs (val y)) + rt.
Proof.
  intros Fx Fy H HB. rewrite <- Rabs_mult in *. destruct (mul_val x y Fx Fy) as (A & C).
  - pose proof (rnd_bnd (val x * val y) 1 100 ltac:(unfold kok; lia)) as R. rewrite Rmult_1_l in R. apply R. lra.
  - split; [exact A|]. rewrite C. apply rnd_err.
Qed.

(** ** Gains *)
Definition gain_same (g : Z) : bool :=
  match gain32 g, unquantize_gain g with
  | Some a, Some p => match f32_units a with Some u => (u =? fst p * 2 ^ (snd p + 149))%Z && (-64 <=? snd p)%Z | None => false end
  | _, _ => false
  end.
Lemma gains_same : forallb gain_same gain_range = true.
Proof. vm_compute. reflexivity. Qed.
Lemma gain32_ok g : (-255 <= g <= 255)%Z -> exists a, gain32 g = Some a /\ fin a /\ (1 - / 2 ^ 19) * ten g <= val a <= (1 + / 2 ^ 19) * ten g.
Proof.
  intros H. destruct (gain_value g H) as (p & Ep & _ & V). pose proof gains_same as A. rewrite forallb_forall in A.
  assert (I : In g gain_range). { apply in_map_iff. exists (Z.to_nat (g + 255)). split; [lia|]. apply in_seq. lia. }
  specialize (A g I). unfold gain_same in A. rewrite Ep in A. destruct (gain32 g) as [a|]; [|discriminate]. exists a. split; [reflexivity|].
  destruct (f32_units a) as [u|] eqn:Eu; [|discriminate]. apply andb_prop in A. destruct A as (A & A2). apply Z.eqb_eq in A. apply Z.leb_le in A2. pose proof (units_inv _ _ Eu) as F. split; [exact F|].
  destruct (units_ok a F) as (u' & E' & V' & _). rewrite Eu in E'. injection E' as <-. subst u. rewrite mult_IZR in V'.
  replace (val a) with (pvalue p); [exact V|]. apply Rmult_eq_reg_r with (p2 149); [|apply Rgt_not_eq, bpow_gt_0]. rewrite <- V'. unfold pvalue. rewrite Rmult_assoc. f_equal.
  change (2 ^ (snd p + 149))%Z with (Zpower radix2 (snd p + 149)). rewrite IZR_Zpower by lia. rewrite bpow_plus. f_equal. rewrite bpow_powerRZ. reflexivity.
Qed.
Lemma ten_le a b : (a <= b)%Z -> ten a <= ten b.
Proof. intros H. unfold ten. apply Rle_Rpower; [lra|]. apply IZR_le in H. lra. Qed.
Lemma ten_0 : ten 0 = 1.
Proof. unfold ten, Rdiv. rewrite Rmult_0_l. apply Rpower_O. lra. Qed.
Lemma ten_28_1 : ten 28 = 10.
Proof. change 28%Z with (28 * 1)%Z. rewrite ten_28. apply powerRZ_1. Qed.
Lemma ten_280 : ten 280 = 10000000000.
Proof. change 280%Z with (28 * 10)%Z. rewrite ten_28. change (powerRZ 10 10) with (10 ^ 10). cbn [pow]. lra. Qed.
Lemma ten_opp g : ten g * ten (- g) = 1.
Proof. rewrite <- ten_add, Z.add_opp_diag_r. apply ten_0. Qed.
Lemma ten_big g : (g <= 255)%Z -> 0 < ten g <= 10000000000.
Proof. intros H. split; [apply ten_pos|]. rewrite <- ten_280. apply ten_le. lia. Qed.

(** ** Maximum *)
Lemma lim_2 : / 2 ^ 19 <= / 500000. Proof. lra. Qed.
Lemma ru_b : 0 < ru <= / 16000000. Proof. rewrite ru_eq. lra. Qed.

Lemma square_err x B : fin x -> Rabs (val x) <= B -> B * B <= p2 100 -> 0 <= B ->
  fin (Mul x x) /\ 0 <= val (Mul x x) /\ Rabs (val (Mul x x) - val x * val x) <= ru * (val x * val x) + rt.
Proof.
  intros F H HB B0. assert (S : Rabs (val x) * Rabs (val x) = val x * val x) by (rewrite <- Rabs_mult; apply Rabs_pos_eq; nra).
  assert (L : Rabs (val x) * Rabs (val x) <= B * B) by (apply Rmult_le_compat; auto using Rabs_pos).
  destruct (mul_val x x F F) as (A & C).
  - pose proof (rnd_bnd (val x * val x) 1 100 ltac:(unfold kok; lia)) as R. rewrite Rmult_1_l in R. apply R. rewrite Rabs_mult. lra.
  - split; [exact A|]. rewrite C. split; [apply SnsProject.rnd_pos; nra|]. pose proof (rnd_err (val x * val x)) as E. rewrite (Rabs_pos_eq (val x * val x)) in E by nra. exact E.
Qed.

Lemma max_fold (x : list f32) B : forall m, fin m -> 0 <= val m -> Forall (fun v => fin v /\ Rabs (val v) <= B) x -> B * B <= p2 100 -> 0 <= B ->
  let r := fold_left (fun m v => f32_max m (Mul v v)) x m in
  fin r /\ val m <= val r /\ Forall (fun v => val (Mul v v) <= val r) x.
Proof.
  induction x as [|v x IH]; intros m Fm Pm H HB B0; cbn [fold_left].
  - split; [exact Fm|]. split; [lra|constructor].
  - inversion H as [|? ? (Fv & Bv) Hx]; subst. destruct (square_err v B Fv Bv HB B0) as (F2 & P2 & _).
    destruct (max_val m (Mul v v) Fm F2) as (F3 & V3). cbv zeta in IH.
    destruct (IH (f32_max m (Mul v v)) F3) as (R1 & R2 & R3); try assumption.
    { rewrite V3. eapply Rle_trans; [exact Pm|apply Rmax_l]. }
    split; [exact R1|]. rewrite V3 in R2. split; [eapply Rle_trans; [apply Rmax_l|exact R2]|]. constructor; [eapply Rle_trans; [apply Rmax_r|exact R2]|exact R3].
Qed.

Lemma sqrt_fin m : fin m -> 0 <= val m -> fin (Bsqrt mode_NE m) /\ val (Bsqrt mode_NE m) = rnd32 (sqrt (val m)).
Proof.
  intros F P. destruct (Bsqrt_correct 24 128 _ _ mode_NE m) as (A & B & _). split; [|exact A]. unfold fin. rewrite B.
  destruct m as [s|s| |s mm e Hb]; try discriminate F; [reflexivity|]. destruct s; [exfalso|reflexivity].
  unfold val in P. cbn [B2R] in P. assert (F2R (Float radix2 (cond_Zopp true (Z.pos mm)) e) < 0); [|lra]. apply F2R_lt_0. reflexivity.
Qed.

(** Each coefficient is below the maximum, or negligible. *)
Lemma x_max_ok x B : Forall (fun v => fin v /\ Rabs (val v) <= B) x -> B * B <= p2 100 -> 0 <= B ->
  let m := Bsqrt mode_NE (square_max x) in
  fin m /\ 0 <= val m /\ Forall (fun v => Rabs (val v) <= p2 (-50) \/ Rabs (val v) <= (1 + / 1000000) * val m) x.
Proof.
  intros H HB B0. cbv zeta. destruct (max_fold x B c0 eq_refl ltac:(right; reflexivity) H HB B0) as (F & P & M). fold (square_max x) in F, P, M. change (val c0) with 0 in P.
  destruct (sqrt_fin _ F P) as (F2 & V2). set (m2 := square_max x) in *. set (m := Bsqrt mode_NE m2) in *. clearbody m m2.
  split; [exact F2|]. split; [rewrite V2; apply SnsProject.rnd_pos, sqrt_pos|].
  apply Forall_forall. intros v Hv. rewrite Forall_forall in M, H. specialize (M v Hv). destruct (H v Hv) as (Fv & Bv).
  destruct (Rle_or_lt (Rabs (val v)) (p2 (-50))) as [C|C]; [left; exact C|right].
  destruct (square_err v B Fv Bv HB B0) as (_ & _ & E). apply Rabs_le_inv in E.
  assert (S : val v * val v = Rabs (val v) * Rabs (val v)) by (rewrite <- Rabs_mult; symmetry; apply Rabs_pos_eq; nra).
  rewrite S in E. set (a := Rabs (val v)) in *. clearbody a. pose proof ru_b as U.
  assert (T : rt <= ru * (a * a)).
  { apply Rle_trans with (ru * (p2 (-50) * p2 (-50))).
    - unfold ru, rt. rewrite <- !bpow_plus. apply bpow_le. lia.
    - apply Rmult_le_compat_l; [lra|]. pose proof (bpow_gt_0 radix2 (-50)). apply Rmult_le_compat; lra. }
  assert (Q : a * a * (1 - 2 * ru) <= val m2) by lra.
  assert (K : a * (1 - 2 * ru) <= sqrt (val m2)).
  { pose proof (bpow_gt_0 radix2 (-50)). apply Rsqr_incr_0; [|apply Rmult_le_pos; lra|apply sqrt_pos]. rewrite Rsqr_sqrt by exact P. unfold Rsqr.
    eapply Rle_trans; [|exact Q]. replace (a * (1 - 2 * ru) * (a * (1 - 2 * ru))) with (a * a * (1 - 2 * ru) * (1 - 2 * ru)) by ring.
    assert (0 <= a * a * (1 - 2 * ru)) by (apply Rmult_le_pos; nra). nra. }
  pose proof (rnd_err (sqrt (val m2))) as R. rewrite <- V2 in R. rewrite (Rabs_pos_eq (sqrt (val m2))) in R by apply sqrt_pos. apply Rabs_le_inv in R.
  set (s := sqrt (val m2)) in *. clearbody s.
  assert (T2 : rt <= ru * a). { apply Rle_trans with (ru * p2 (-50)); [unfold ru, rt; rewrite <- bpow_plus; apply bpow_le; lia|apply Rmult_le_compat_l; lra]. }
  assert (L : a * (1 - 2 * ru) * (1 - ru) - ru * a <= val m). { apply Rle_trans with (s * (1 - ru) - rt); [|lra]. assert (a * (1 - 2 * ru) * (1 - ru) <= s * (1 - ru)) by (apply Rmult_le_compat_r; lra). lra. }
  assert (A0 : 0 < a) by (pose proof (bpow_gt_0 radix2 (-50)); lra).
  assert (L2 : a * (1 - 5 * ru) <= val m). { eapply Rle_trans; [|exact L]. assert (0 <= a * (ru * ru)) by (apply Rmult_le_pos; nra). nra. }
  apply Rle_trans with ((1 + / 1000000) * (a * (1 - 5 * ru))); [|apply Rmult_le_compat_l; lra].
  replace ((1 + / 1000000) * (a * (1 - 5 * ru))) with (a * ((1 + / 1000000) * (1 - 5 * ru))) by ring. rewrite <- (Rmult_1_r a) at 1. apply Rmult_le_compat_l; [lra|]. nra.
Qed.

(** The comparison with the limit of the quantizer. *)
Lemma fits32_value sr m g : is_hr sr = false -> (-255 <= g <= 255)%Z -> fin m -> fits32 sr m g = true -> val m < (1 + / 100000) * (32767 * ten g).
Proof.
  intros Hr H F E. unfold fits32 in E. rewrite Hr in E. destruct (gain32_ok g H) as (a & Ea & Fa & V). rewrite Ea in E.
  assert (F1 : fin (f32_of_int 32767) /\ val (f32_of_int 32767) = 32767). { destruct (dy_exact 32767 0) as (A & B); try lia. split; [exact A|]. unfold f32_of_int. rewrite B. cbn. ring. }
  destruct F1 as (F1 & V1). pose proof (ten_big g ltac:(lia)) as T. pose proof lim_2 as L2.
  assert (A0 : 0 <= val a <= 2 * ten g) by nra.
  destruct (mul_err (f32_of_int 32767) a 1000000000000000 F1 Fa) as (F3 & V3).
  { rewrite V1. rewrite (Rabs_pos_eq 32767), (Rabs_pos_eq (val a)) by lra. nra. }
  { apply Rle_trans with (p2 60); [cbn; lra|apply bpow_le; lia]. }
  rewrite Bltb_correct in E by assumption. fold (val m) (val (Mul (f32_of_int 32767) a)) in E. apply Rlt_bool_true_iff in E || (destruct (Rlt_bool_spec (val m) (val (Mul (f32_of_int 32767) a))) as [E2|E2]; [|discriminate E]).
  apply Rabs_le_inv in V3. rewrite V1 in V3. rewrite (Rabs_pos_eq 32767), (Rabs_pos_eq (val a)) in V3 by lra. pose proof ru_b as U.
  assert (T255 : / 10000000000 <= ten g). { pose proof (ten_opp g) as O. pose proof (ten_big (- g) ltac:(lia)) as T2. apply Rmult_le_reg_r with (ten (- g)); [lra|]. rewrite O. lra. }
  pose proof rt_small as (_ & R1). assert (R2 : rt <= ru * ten g).
  { apply Rle_trans with (ru * / 10000000000); [|apply Rmult_le_compat_l; lra]. apply Rle_trans with (ru * p2 (-34)); [|apply Rmult_le_compat_l; [lra|cbn; lra]]. unfold ru, rt. rewrite <- bpow_plus. apply bpow_le. lia. }
  nra.
Qed.

(** ** Energies *)
Lemma bits_ok nan (x : f32) : fin x -> 0 < val x -> val x <= p2 86 -> (0 <= f32_bits nan x <= 213 * 2 ^ 23)%Z.
Proof.
  intros F P L. destruct x as [s|s| |s m e Hb]; try discriminate F.
  - change (val (B754_zero s)) with 0 in P. lra.
  - cbn [f32_bits]. destruct s; [exfalso; unfold val in P; cbn [B2R] in P; assert (F2R (Float radix2 (cond_Zopp true (Z.pos m)) e) < 0) by (apply F2R_lt_0; reflexivity); lra|].
    assert (B : (Z.pos m < 2 ^ 24)%Z /\ (-149 <= e)%Z).
    { pose proof Hb as Hb2. unfold SpecFloat.bounded in Hb2. apply andb_prop in Hb2. destruct Hb2 as (C & D).
      unfold SpecFloat.canonical_mantissa, SpecFloat.fexp, SpecFloat.emin in C. apply Zeq_bool_eq in C. rewrite Digits.Zpos_digits2_pos in C.
      change (3 - 128 - 24)%Z with (-149)%Z in C. split; [|lia]. apply (Digits.Zpower_gt_Zdigits radix2 24 (Z.pos m)). lia. }
    destruct (Z.ltb_spec (Z.pos m) (2 ^ 23)) as [C|C]; [lia|].
    assert (Q : (Z.pos m * 2 ^ (e + 149) <= 2 ^ 235)%Z).
    { apply le_IZR. rewrite mult_IZR. change (2 ^ (e + 149))%Z with (Zpower radix2 (e + 149)). change (2 ^ 235)%Z with (Zpower radix2 235). rewrite !IZR_Zpower by lia.
      unfold val in L. cbn [B2R] in L. unfold F2R in L. cbn [Fnum Fexp cond_Zopp] in L. rewrite bpow_plus, <- Rmult_assoc. change 235%Z with (86 + 149)%Z. rewrite bpow_plus. apply Rmult_le_compat_r; [apply bpow_ge_0|exact L]. }
    destruct (Z_lt_le_dec e 63) as [E1|E1]; [lia|].
    assert (E2 : (e = 63)%Z).
    { destruct (Z.eq_dec e 63); [assumption|exfalso]. assert (2 ^ 213 <= 2 ^ (e + 149))%Z by (apply Z.pow_le_mono_r; lia).
      assert (2 ^ 23 * 2 ^ 213 <= Z.pos m * 2 ^ (e + 149))%Z by (apply Z.mul_le_mono_nonneg; lia). lia. }
    subst e. change (63 + 149)%Z with 212%Z in Q. assert (Z.pos m = 2 ^ 23)%Z; [|lia]. destruct (Z.eq_dec (Z.pos m) (2 ^ 23)); [assumption|exfalso].
    assert ((2 ^ 23 + 1) * 2 ^ 212 <= Z.pos m * 2 ^ 212)%Z by (apply Z.mul_le_mono_nonneg_r; lia). lia.
Qed.
Definition db_lim : bool := match db_q16 (213 * 2 ^ 23) with Some e => (e <=? 130 * 2 ^ 16)%Z | None => false end.
Lemma db_lim_ok : db_lim = true. Proof. vm_compute. reflexivity. Qed.

Definition x_bound : R := 1480000.
Lemma x_sq x : fin x -> Rabs (val x) <= x_bound -> bnd 1 41 (Mul x x) /\ 0 <= val (Mul x x).
Proof.
  intros F H. assert (A : Rabs (val x * val x) <= IZR 1 * p2 41).
  { rewrite Rabs_mult. apply Rle_trans with (x_bound * x_bound); [apply Rmult_le_compat; auto using Rabs_pos|]. unfold x_bound. cbn. lra. }
  destruct (rnd_bnd _ _ _ (kok1 41 ltac:(unfold eok; lia)) A) as (B & C). destruct (mul_val x x F F C) as (D & E). split; [split; [exact D|rewrite E; exact B]|].
  rewrite E. apply SnsProject.rnd_pos. nra.
Qed.
Lemma add_pos x y k e : kok k e -> bnd k e (Add x y) -> fin x -> fin y -> 0 <= val x -> 0 <= val y -> Rabs (val x + val y) <= IZR k * p2 e -> 0 <= val (Add x y).
Proof. intros K B Fx Fy Px Py H. destruct (rnd_bnd _ _ _ K H) as (_ & C). destruct (add_val x y Fx Fy C) as (_ & E). rewrite E. apply SnsProject.rnd_pos. lra. Qed.
Lemma bnd_add_pos k1 k2 e x y : kok (k1 + k2) e -> bnd k1 e x -> bnd k2 e y -> 0 <= val x -> 0 <= val y -> bnd (k1 + k2) e (Add x y) /\ 0 <= val (Add x y).
Proof.
  intros K Hx Hy Px Py. pose proof (bnd_add k1 k2 e x y K Hx Hy) as B. split; [exact B|]. destruct Hx as (Fx & Hx). destruct Hy as (Fy & Hy).
  eapply add_pos; try eassumption. eapply Rle_trans; [apply Rabs_triang|]. rewrite plus_IZR. lra.
Qed.

Lemma energies_ok nan : forall n4 x, length x = (4 * n4)%nat -> Forall (fun v => fin v /\ Rabs (val v) <= x_bound) x ->
  exists es db, block_energies n4 x = Some es /\ all_some (map (block_db nan c0) es) = Some db /\ length db = n4 /\
    (forall e, In e db -> energy e /\ (e <= 130 * 2 ^ 16)%Z).
Proof.
  induction n4 as [|n4 IH]; intros x L H.
  - exists nil, nil. destruct x; [|discriminate L]. repeat split; try reflexivity; destruct H0.
  - destruct x as [|x0 [|x1 [|x2 [|x3 r]]]]; try (cbn in L; lia).
    inversion H as [|? ? (F0 & B0) H1]; subst. inversion H1 as [|? ? (F1 & B1) H2]; subst. inversion H2 as [|? ? (F2 & B2) H3]; subst. inversion H3 as [|? ? (F3 & B3) H4]; subst.
    destruct (IH r) as (es & db & E1 & E2 & E3 & E4); [cbn in L; lia|exact H4|].
    cbn [block_energies]. rewrite E1. cbn [bind].
    destruct (x_sq x0 F0 B0) as (Q0 & P0). destruct (x_sq x1 F1 B1) as (Q1 & P1). destruct (x_sq x2 F2 B2) as (Q2 & P2). destruct (x_sq x3 F3 B3) as (Q3 & P3).
    destruct (bnd_add_pos 1 1 41 _ _ ltac:(unfold kok; lia) Q0 Q1 P0 P1) as (S1 & S1p).
    destruct (bnd_add_pos 2 1 41 _ _ ltac:(unfold kok; lia) S1 Q2 S1p P2) as (S2 & S2p).
    destruct (bnd_add_pos 3 1 41 _ _ ltac:(unfold kok; lia) S2 Q3 S2p P3) as (S3 & S3p).
    set (s := Add (Add (Add (Mul x0 x0) (Mul x1 x1)) (Mul x2 x2)) (Mul x3 x3)) in *. clearbody s. change (3 + 1)%Z with 4%Z in S3.
    assert (Z0 : bnd 0 41 c0). { split; [reflexivity|]. change (val c0) with 0. rewrite Rabs_R0. lra. }
    destruct (bnd_add_pos 4 0 41 s c0 ltac:(unfold kok; lia) S3 Z0 S3p ltac:(right; reflexivity)) as ((F & B) & P).
    exists (s :: es). cbn [map all_some].
    assert (D : exists e, block_db nan c0 s = Some e /\ energy e /\ (e <= 130 * 2 ^ 16)%Z).
    { unfold block_db. destruct (dy_exact 14411519 57) as (Fc & Vc); [lia|lia|]. destruct (max_val (Add s c0) (f32_dy 14411519 57) F Fc) as (Fm & Vm).
      rewrite Rabs_pos_eq in B by exact P. assert (C0 : 0 < val (f32_dy 14411519 57) <= 1). { rewrite Vc. cbn. lra. }
      assert (P43 : IZR (4 + 0) * p2 41 = p2 43). { change 43%Z with (2 + 41)%Z. rewrite bpow_plus. f_equal. }
      assert (P1' : 1 <= p2 43). { change 1 with (p2 0). apply bpow_le. lia. }
      set (w := f32_max (Add s c0) (f32_dy 14411519 57)) in *.
      assert (K1 : p2 (-34) <= val w). { rewrite Vm. eapply Rle_trans; [|apply Rmax_r]. rewrite Vc. cbn. lra. }
      pose proof (bpow_gt_0 radix2 (-34)) as K0.
      assert (K2 : val w <= p2 43). { rewrite Vm. apply Rmax_lub; [rewrite <- P43; exact B|lra]. }
      clearbody w.
      assert (A : Rabs (val w * val w) <= IZR 1 * p2 86).
      { rewrite Rmult_1_l, Rabs_pos_eq by nra. change 86%Z with (43 + 43)%Z. rewrite bpow_plus. apply Rmult_le_compat; lra. }
      destruct (rnd_bnd _ _ _ (kok1 86 ltac:(unfold eok; lia)) A) as (B' & C'). destruct (mul_val w w Fm Fm C') as (Fq & Vq).
      assert (K3 : 0 < val (Mul w w)).
      { rewrite Vq. assert (PW : p2 (-68) <= val w * val w) by (change (-68)%Z with (-34 + -34)%Z; rewrite bpow_plus; apply Rmult_le_compat; lra).
        apply Rlt_le_trans with (p2 (-68)); [apply bpow_gt_0|]. apply round_ge_generic; [typeclasses eauto|typeclasses eauto| |exact PW].
        apply generic_format_bpow. unfold FLT_exp. cbn. lia. }
      assert (K4 : val (Mul w w) <= p2 86). { rewrite Rabs_pos_eq in B' by (rewrite <- Vq; lra). rewrite Vq. lra. }
      pose proof (bits_ok nan (Mul w w) Fq K3 K4) as K. set (u := f32_bits nan _) in *. clearbody u. destruct (db_q16_ok u ltac:(lia)) as (Eu & En). exists (db_value u). split; [exact Eu|]. split; [exact En|].
      pose proof db_lim_ok as L2. unfold db_lim in L2. destruct (db_q16_ok (213 * 2 ^ 23) ltac:(lia)) as (Eu2 & _). rewrite Eu2 in L2. pose proof (db_mono u (213 * 2 ^ 23) K). lia. }
    destruct D as (e & De & En & Le). exists (e :: db). split; [reflexivity|]. split; [rewrite De; cbn [bind]; rewrite E2; reflexivity|]. split; [cbn; lia|].
    intros e' [<-|I]; [split; assumption|apply E4; exact I].
Qed.
