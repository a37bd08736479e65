(** * C48: the fast mathematical functions of the code, in binary32

    [x] is any finite number of the stated range, normal where a logarithm is taken; [nan] is the
    value of the bits of a NaN, without effect here. *)
From Coq Require Import Reals ZArith List Bool Lia Lra Psatz.
From Flocq Require Import Core.Core IEEE754.BinarySingleNaN Relative Plus_error.
From Verif Require Import Base FloatOps FloatLaws F32Model F32Proofs GainModel GainProofs SpecEncModel SpecEncFloat SnsProject FastReal FastFloat FastExp FastDb.
Import ListNotations.
Local Open Scope R_scope.

Lemma p2_pos n : p2 (Z.of_nat n) = 2 ^ n.
Proof. rewrite bpow_powerRZ. rewrite <- pow_powerRZ. reflexivity. Qed.
Lemma p2_neg n : p2 (- Z.of_nat n) = / 2 ^ n.
Proof. rewrite bpow_opp, p2_pos. reflexivity. Qed.

(** ** The split into a fraction and an exponent *)
Theorem C48_frexp nan (x : f32) : is_finite x = true -> / 2 ^ 126 <= B2R x ->
  let (m, e) := frexp32 nan x in is_finite m = true /\ / 2 <= B2R m < 1 /\ (-125 <= e <= 128)%Z /\ B2R x = B2R m * Rpower 2 (IZR e).
Proof.
  intros F L. rewrite <- (p2_neg 126) in L. destruct (frexp_normal nan x F L) as (A & B & C & D). destruct (frexp32 nan x) as (m & e). cbn [fst snd] in *. split; [exact A|]. split; [exact B|]. split; [exact C|].
  unfold Rpower. change 2 with (IZR radix2). rewrite <- bpow_exp. exact D.
Qed.
Print Assumptions C48_frexp.
Example C48_frexp_example : f32_bits 0 (fst (frexp32 0 (f32_dy 20 0))) = f32_bits 0 (f32_dy 5 3) /\ snd (frexp32 0 (f32_dy 20 0)) = 5%Z.
Proof. vm_compute. split; reflexivity. Qed.

(** ** The logarithm: error at most 2e-4 *)
Theorem C48_log2 nan (x : f32) : is_finite x = true -> / 2 ^ 126 <= B2R x ->
  is_finite (log2_32 nan x) = true /\ Rabs (B2R (log2_32 nan x) - ln (B2R x) / ln 2) <= 2 / 10000.
Proof. intros F L. rewrite <- (p2_neg 126) in L. destruct (log2_near nan x F L) as (A & B). split; [exact A|]. unfold val in B. lra. Qed.
Print Assumptions C48_log2.
(** The error of about 1e-4 given by the comment of the function does not hold: 1.63e-4 for 1. *)
Theorem C48_log2_comment_refuted : exists x : f32, is_finite x = true /\ / 2 ^ 126 <= B2R x /\
  forall nan, 16 / 100000 <= Rabs (B2R (log2_32 nan x) - ln (B2R x) / ln 2).
Proof.
  destruct (dy_near 1 0 1 ltac:(lia) ltac:(lia) ltac:(cbn; lra)) as (F & V). exists (f32_dy 1 0). assert (V1 : B2R (f32_dy 1 0) = 1) by (unfold val in V; apply Rabs_le_inv in V; lra).
  split; [exact F|]. split.
  - rewrite V1. rewrite <- (p2_neg 126). change 1 with (p2 0). apply bpow_le. lia.
  - intros nan. rewrite V1, ln_1. assert (E : exists u, f32_units (log2_32 nan (f32_dy 1 0)) = Some u /\ (16 * 2 ^ 149 / 100000 + 1 < u)%Z) by (eexists; split; [vm_compute; reflexivity|reflexivity]).
    destruct E as (u & E & Hu). destruct (units_ok _ (units_inv _ _ E)) as (u' & E' & Eu & _). rewrite E in E'. injection E' as <-.
    assert (Hu2 : (16 * 2 ^ 149 <= u * 100000)%Z) by (clear - Hu; revert Hu; set (q := (2 ^ 149)%Z); clearbody q; Z.div_mod_to_equations; lia).
    apply IZR_le in Hu2. rewrite !mult_IZR, Eu in Hu2. change (IZR (2 ^ 149)) with (p2 149) in Hu2. pose proof (bpow_gt_0 radix2 149) as P. unfold val in Hu2.
    set (w := B2R (log2_32 _ _)) in *. clearbody w. set (p := p2 149) in *. clearbody p. assert (H : 16 / 100000 <= w) by (apply Rmult_le_reg_r with p; [exact P|lra]). replace (w - 0 / ln 2) with w by (unfold Rdiv; ring). rewrite Rabs_pos_eq by lra. exact H.
Qed.
Print Assumptions C48_log2_comment_refuted.

(** ** The power of 2: relative error within the 4e-7 of its comment *)
Theorem C48_exp2 nan (x : f32) : is_finite x = true -> Rabs (B2R x) <= 100 ->
  is_finite (exp2_32 nan x) = true /\ Rabs (B2R (exp2_32 nan x) - Rpower 2 (B2R x)) <= 4 / 10000000 * Rpower 2 (B2R x).
Proof. intros F L. destruct (exp2_near nan x F L) as (A & B). split; [exact A|]. pose proof (exp_pos (B2R x * ln 2)) as P. fold (Rpower 2 (B2R x)) in P. unfold val in B. lra. Qed.
Print Assumptions C48_exp2.
Example C48_exp2_example : f32_bits 0 (exp2_32 0 (f32_dy (-13) 2)) = f32_bits 0 (f32_dy 14107901 27).
Proof. vm_compute. reflexivity. Qed.
(** The gains of opposite exponents. *)
Theorem C48_exp2_opposite nan (x : f32) : is_finite x = true -> Rabs (B2R x) <= 100 ->
  Rabs (B2R (exp2_32 nan x) * B2R (exp2_32 nan (Bopp x)) - 1) <= / 1000000.
Proof.
  intros F L. destruct (exp2_near nan x F L) as (_ & A). assert (F2 : fin (Bopp x)) by (unfold fin; rewrite is_finite_Bopp; exact F). assert (V2 : val (Bopp x) = - val x) by apply B2R_Bopp.
  destruct (exp2_near nan (Bopp x) F2) as (_ & B). { rewrite V2, Rabs_Ropp. exact L. }
  rewrite V2 in B. unfold val in *. assert (P : 0 < Rpower 2 (B2R x)) by apply exp_pos. assert (Q : Rpower 2 (B2R x) * Rpower 2 (- B2R x) = 1) by (rewrite <- Rpower_plus, Rplus_opp_r; apply Rpower_O; lra).
  set (p := Rpower 2 (B2R x)) in *. set (q := Rpower 2 (- B2R x)) in *. set (a := B2R (exp2_32 nan x)) in *. set (b := B2R (exp2_32 nan (Bopp x))) in *. assert (Pq : 0 < q) by apply exp_pos. clearbody a b p q.
  replace (a * b - 1) with ((a - p) * q + p * (b - q) + (a - p) * (b - q) + (p * q - 1)) by ring. rewrite Q. replace (1 - 1) with 0 by ring. rewrite Rplus_0_r.
  assert (T1 : Rabs ((a - p) * q) <= 0.0000003). { rewrite Rabs_mult, (Rabs_pos_eq q) by lra. replace 0.0000003 with (0.0000003 * p * q) by (rewrite Rmult_assoc, Q; ring). apply Rmult_le_compat_r; lra. }
  assert (T2 : Rabs (p * (b - q)) <= 0.0000003). { rewrite Rabs_mult, (Rabs_pos_eq p) by lra. replace 0.0000003 with (p * (0.0000003 * q)) by (replace (p * (0.0000003 * q)) with (0.0000003 * (p * q)) by ring; rewrite Q; ring). apply Rmult_le_compat_l; lra. }
  assert (T3 : Rabs ((a - p) * (b - q)) <= 0.0000003). { rewrite Rabs_mult. apply Rle_trans with ((0.0000003 * p) * (0.0000003 * q)); [apply Rmult_le_compat; auto using Rabs_pos|]. replace ((0.0000003 * p) * (0.0000003 * q)) with (0.0000003 * 0.0000003 * (p * q)) by ring. rewrite Q. lra. }
  eapply Rle_trans; [apply Rabs_triang|]. eapply Rle_trans; [apply Rplus_le_compat_r, Rabs_triang|]. lra.
Qed.
Print Assumptions C48_exp2_opposite.

(** ** The level in dB, on the range of the comment: error at most 0.0014 dB *)
Theorem C48_db nan (x : f32) : is_finite x = true -> / 2 ^ 63 <= B2R x <= 2 ^ 63 ->
  exists d, db_q16 (f32_bits nan (Mul x x)) = Some d /\ Rabs (IZR d / 65536 - 10 * (ln (B2R x) / ln 10)) <= 14 / 10000.
Proof. intros F (L & U). rewrite <- (p2_neg 63) in L. rewrite <- (p2_pos 63) in U. destruct (db_float nan x F (conj L U)) as (d & A & B). exists d. split; [exact A|]. unfold val in B. lra. Qed.
Print Assumptions C48_db.
Example C48_db_example : db_q16 (f32_bits 0 (Mul (f32_dy 1000 0) (f32_dy 1000 0))) = Some 1966089%Z.
Proof. vm_compute. reflexivity. Qed.
(** The energies of the blocks, for the estimation of the gain: [e] the energy, [nf] the floor. *)
Theorem C48_energy nan (e nf : f32) : is_finite e = true -> is_finite nf = true -> 0 <= B2R e <= 2 ^ 61 -> 0 <= B2R nf <= 2 ^ 61 ->
  exists d s, block_db nan nf e = Some d /\ Rabs (s - (B2R e + B2R nf)) <= / 10000000 * (B2R e + B2R nf) /\
    Rabs (IZR d / 65536 - 10 * (ln (Rmax s (14411519 / 2 ^ 57)) / ln 10)) <= 14 / 10000.
Proof.
  intros Fe Fn (E1 & E2) (N1 & N2). assert (P61 : 2 ^ 61 = p2 61) by (symmetry; apply (p2_pos 61)). rewrite P61 in *.
  assert (B62 : Rabs (val e + val nf) <= IZR 1 * p2 62). { rewrite Rabs_pos_eq by (unfold val; lra). change (p2 62) with (p2 (1 + 61)). rewrite bpow_plus. change (p2 1) with 2. unfold val. lra. }
  destruct (rnd_bnd _ _ _ (kok1 62 ltac:(unfold eok; lia)) B62) as (R1 & R2). destruct (add_val e nf Fe Fn R2) as (Fs & Vs). destruct (dy_exact 14411519 57 ltac:(lia) ltac:(lia)) as (Fc & Vc).
  destruct (max_val _ _ Fs Fc) as (Fm & Vm). assert (Cc : IZR 14411519 * p2 (- (57)) = 14411519 / 2 ^ 57) by (change (- (57))%Z with (- Z.of_nat 57)%Z; rewrite p2_neg; reflexivity). rewrite Vc, Cc in Vm.
  assert (S0 : 0 <= val (Add e nf)). { rewrite Vs. apply round_ge_generic; try apply valid_rnd_N; [apply fexp_correct; reflexivity|apply generic_format_0|unfold val; lra]. }
  assert (C1 : / 2 ^ 63 <= 14411519 / 2 ^ 57) by lra.
  destruct (C48_db nan _ Fm) as (d & D1 & D2).
  { change (B2R (f32_max (Add e nf) (f32_dy 14411519 57))) with (val (f32_max (Add e nf) (f32_dy 14411519 57))). rewrite Vm. split; [eapply Rle_trans; [exact C1|apply Rmax_r]|]. apply Rmax_lub; [|lra].
    rewrite Vs. eapply Rle_trans; [apply Rle_abs|]. eapply Rle_trans; [exact R1|]. rewrite <- (p2_pos 63). rewrite Rmult_1_l. apply bpow_le. lia. }
  exists d, (val (Add e nf)). split; [exact D1|]. change (B2R (f32_max (Add e nf) (f32_dy 14411519 57))) with (val (f32_max (Add e nf) (f32_dy 14411519 57))) in D2. rewrite Vm in D2. split; [|exact D2].
  rewrite Vs. destruct (FLT_plus_error_N_ex radix2 (-149) 24 (fun t => negb (Z.even t)) (B2R e) (B2R nf)) as (eps & He & Er); try (apply generic_format_B2R).
  assert (Er2 : rnd32 (val e + val nf) = (B2R e + B2R nf) * (1 + eps)) by exact Er. rewrite Er2.
  assert (He2 : Rabs eps <= / 10000000). { eapply Rle_trans; [exact He|]. unfold u_ro. replace (/ 2 * p2 (- (24) + 1)) with (/ 16777216) by (cbn; lra). lra. }
  set (t := B2R e + B2R nf) in *. assert (0 <= t) by (unfold t; lra). replace (t * (1 + eps) - t) with (eps * t) by ring. rewrite Rabs_mult, (Rabs_pos_eq t) by assumption. apply Rmult_le_compat_r; assumption.
Qed.
Print Assumptions C48_energy.
