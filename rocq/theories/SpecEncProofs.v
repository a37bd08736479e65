(** * Analysis of the spectrum in binary32: the scaled coefficients can be coded *)
From Coq Require Import Reals ZArith List Bool Lia Lra ZifyBool.
From Flocq Require Import Core.Core IEEE754.BinarySingleNaN.
From Verif Require Import Base BaseProofs ConfigModel ConfigProofs FloatModel FloatProofs ResidualModel ResidualSpec ResidualModes SideModel SideSpec SpecModel SpecSpec BudgetModel BudgetSpec BudgetFrame P_Budget.
From Verif Require Import GainModel GainProofs GainFloat P_Gain NoiseModel NoiseSpec P_Noise FloatOps FloatLaws F32Model F32Proofs SnsProject SpecEncModel SpecEncFloat.
Import ListNotations.
Local Open Scope R_scope.

(** ** The offset on the count of bits *)
Definition spec_ok (st : spec_state) : Prop := bnd 41 0 (s_off st) /\ (Z.abs (s_spare st) <= 2 ^ 20)%Z.
Lemma spec_init_ok : spec_ok spec_init.
Proof. split; [|cbn; lia]. split; [reflexivity|]. change (val (s_off spec_init)) with 0. rewrite Rabs_R0. cbn. lra. Qed.

Lemma min_val x y : fin x -> fin y -> fin (f32_min x y) /\ val (f32_min x y) = Rmin (val x) (val y).
Proof.
  intros Fx Fy. unfold f32_min. replace (f32_nan x) with false by (destruct x; auto; discriminate). replace (f32_nan y) with false by (destruct y; auto; discriminate).
  rewrite Bltb_correct by assumption. fold (val x) (val y). destruct (Rlt_bool_spec (val x) (val y)) as [H|H]; [rewrite Rmin_left by lra|rewrite Rmin_right by lra]; auto.
Qed.
Lemma of_int_ok z : (Z.abs z <= 2 ^ 24)%Z -> fin (f32_of_int z) /\ val (f32_of_int z) = IZR z.
Proof. intros H. destruct (dy_exact z 0) as (A & B); [exact H|lia|]. split; [exact A|]. unfold f32_of_int. rewrite B. cbn. ring. Qed.
Lemma of_int_bnd z : (Z.abs z <= 2 ^ 24)%Z -> bnd (Z.abs z) 0 (f32_of_int z).
Proof. intros H. destruct (of_int_ok z H) as (A & B). split; [exact A|]. rewrite B, abs_IZR. cbn. lra. Qed.

Lemma next_off_ok st : spec_ok st -> bnd 41 0 (next_off st).
Proof.
  intros (Ho & Hs). unfold next_off. set (v0 := Add (s_off st) (f32_of_int (s_spare st))).
  assert (F0 : fin v0). { apply (bnd_add 41 (Z.abs (s_spare st)) 0); [unfold kok; lia|exact Ho|apply of_int_bnd; lia]. }
  destruct (of_int_ok (-40) ltac:(lia)) as (Fm & Vm). destruct (of_int_ok 40 ltac:(lia)) as (Fp & Vp).
  destruct (max_val v0 _ F0 Fm) as (F1 & V1). destruct (min_val (f32_max v0 (f32_of_int (-40))) _ F1 Fp) as (F2 & V2). clearbody v0.
  set (v := f32_min (f32_max v0 (f32_of_int (-40))) (f32_of_int 40)) in *.
  assert (B : Rabs (val v) <= 40). { rewrite V2, V1, Vm, Vp. apply Rabs_le. split; [apply Rmin_glb; [apply Rmax_r|lra]|apply Rmin_r]. }
  clearbody v. destruct Ho as (Fo & Bo). replace (IZR 41 * p2 0) with 41 in Bo by (cbn; ring).
  assert (M : forall c n k w (x : f32), (0 <= n <= 2 ^ 24)%Z -> (0 <= w <= 100)%Z -> fin x -> Rabs (val x) <= c -> IZR n * p2 (- w) * c <= IZR k * p2 (-4) -> kok k (-4) -> bnd k (-4) (Mul (f32_dy n w) x)).
  { intros c n k w x Hn Hw Fx Bx L K. destruct (dy_exact n w) as (Fd & Vd); [lia|lia|].
    assert (A : Rabs (val (f32_dy n w) * val x) <= IZR k * p2 (-4)).
    { rewrite Rabs_mult, Vd, Rabs_pos_eq by (apply Rmult_le_pos; [apply IZR_le; lia|apply bpow_ge_0]). eapply Rle_trans; [|exact L]. apply Rmult_le_compat_l; [|exact Bx]. apply Rmult_le_pos; [apply IZR_le; lia|apply bpow_ge_0]. }
    destruct (rnd_bnd _ _ _ K A) as (R1 & R2). destruct (mul_val _ _ Fd Fx R2) as (A1 & A2). split; [exact A1|]. rewrite A2. exact R1. }
  apply (bnd_weak (525 + 129) (-4)); [|cbn; lra].
  apply bnd_add; [unfold kok; lia| |].
  - apply (M 41); try lia; try assumption; [cbn; lra|unfold kok; lia].
  - apply (M 40); try lia; try assumption; [cbn; lra|unfold kok; lia].
Qed.

Lemma trunc_ok (x : f32) k : (0 <= k <= 2 ^ 24)%Z -> bnd k 0 x -> exists z, f32_trunc x = Some z /\ (Z.abs z <= k)%Z.
Proof.
  intros Hk (F & B). destruct (units_ok x F) as (u & Eu & Vu & _). unfold f32_trunc. rewrite Eu. cbn [bind].
  assert (U : (Z.abs u <= k * one)%Z).
  { apply le_IZR. rewrite abs_IZR, Vu, Rabs_mult, (Rabs_pos_eq (p2 149)) by apply bpow_ge_0. rewrite mult_IZR. change (IZR one) with (IZR (Zpower radix2 149)). rewrite IZR_Zpower by lia.
    apply Rmult_le_compat_r; [apply bpow_ge_0|]. eapply Rle_trans; [exact B|]. cbn. lra. }
  assert (Q : (Z.abs (Z.quot u one) <= k)%Z).
  { rewrite <- Z.quot_abs by discriminate. change (Z.abs one) with one. rewrite Z.quot_div_nonneg by (try reflexivity; lia). apply Z.div_le_upper_bound; [reflexivity|lia]. }
  unfold F32Model.f32_int. replace ((-2 ^ 31 <=? Z.quot u one) && (Z.quot u one <? 2 ^ 31))%Z with true by lia. eauto.
Qed.

(** ** The scaled coefficients *)
(** [y] is [x] times [t], to [e] and [h]. *)
Definition scaled_to (e h t : R) (x y : f32) : Prop := fin y /\ Rabs (val y - val x * t) <= e * (Rabs (val x) * t) + h.

Lemma scale_first x g gi : fin x -> Rabs (val x) <= x_bound -> (-255 <= g <= 255)%Z -> gain32 (- g) = Some gi -> scaled_to (/ 2 ^ 18) rt (ten (- g)) x (Mul x gi).
Proof.
  intros F B H E. destruct (gain32_ok (- g) ltac:(lia)) as (a & Ea & Fa & V). rewrite E in Ea. injection Ea as <-. pose proof (ten_big (- g) ltac:(lia)) as T. set (t := ten (- g)) in *. clearbody t.
  pose proof lim_2 as L2. assert (A0 : 0 <= val gi <= 2 * t) by nra. assert (X0 : 0 <= Rabs (val x)) by apply Rabs_pos. unfold x_bound in B.
  destruct (mul_err x gi 1000000000000000000 F Fa) as (F3 & V3).
  { rewrite (Rabs_pos_eq (val gi)) by lra. apply Rle_trans with (1480000 * (2 * 10000000000)); [apply Rmult_le_compat; lra|lra]. }
  { apply Rle_trans with (p2 60); [cbn; lra|apply bpow_le; lia]. }
  split; [exact F3|]. replace (val (Mul x gi) - val x * t) with ((val (Mul x gi) - val x * val gi) + val x * (val gi - t)) by ring.
  eapply Rle_trans; [apply Rabs_triang|]. rewrite (Rabs_mult (val x)). rewrite (Rabs_pos_eq (val gi)) in V3 by lra.
  assert (D : Rabs (val gi - t) <= / 2 ^ 19 * t) by (apply Rabs_le; lra).
  set (ax := Rabs (val x)) in *. assert (M1 : ax * Rabs (val gi - t) <= ax * (/ 2 ^ 19 * t)) by (apply Rmult_le_compat_l; assumption).
  assert (M2 : ru * (ax * val gi) <= ru * (ax * (2 * t))). { apply Rmult_le_compat_l; [apply Rlt_le, ru_b|]. apply Rmult_le_compat_l; lra. }
  assert (S : ru * 2 <= / 2 ^ 19) by (rewrite ru_eq; lra). assert (AT : 0 <= ax * t) by (apply Rmult_le_pos; lra).
  assert (M3 : ru * (ax * (2 * t)) <= / 2 ^ 19 * (ax * t)). { replace (ru * (ax * (2 * t))) with (ru * 2 * (ax * t)) by ring. apply Rmult_le_compat_r; assumption. }
  replace (/ 2 ^ 18) with (/ 2 ^ 19 + / 2 ^ 19) by lra. lra.
Qed.

Lemma scale_second x y t a gi B : scaled_to (/ 2 ^ 18) rt t x y -> 0 <= t -> Rabs (val x) * t <= B -> B <= 40000 -> (-1 <= a <= 255)%Z -> gain32 (- a) = Some gi ->
  scaled_to (/ 2 ^ 16) (16 * rt) (t * ten (- a)) x (Mul y gi).
Proof.
  intros (F & S) T HB HB2 H E. destruct (gain32_ok (- a) ltac:(lia)) as (b & Eb & Fb & V). rewrite E in Eb. injection Eb as <-.
  assert (TA : 0 < ten (- a) <= 10) by (split; [apply ten_pos|rewrite <- ten_28_1; apply ten_le; lia]). set (s := ten (- a)) in *. clearbody s.
  pose proof lim_2 as L2. assert (A0 : 0 <= val gi <= 2 * s) by nra. set (m := Rabs (val x) * t) in *. assert (M0 : 0 <= m) by (apply Rmult_le_pos; [apply Rabs_pos|exact T]).
  pose proof rt_small as (R0 & R1). pose proof p2_100 as R2. assert (Rt : 0 <= rt <= / 1000000) by lra.
  assert (Y : Rabs (val y) <= (1 + / 2 ^ 18) * m + rt).
  { replace (val y) with ((val y - val x * t) + val x * t) by ring. eapply Rle_trans; [apply Rabs_triang|]. rewrite (Rabs_mult (val x) t), (Rabs_pos_eq t) by exact T. fold m. lra. }
  assert (Y2 : Rabs (val y) <= 2 * 40000 + 1) by (clear - Y Rt HB HB2 M0; nra).
  destruct (mul_err y gi 10000000 F Fb) as (F3 & V3).
  { rewrite (Rabs_pos_eq (val gi)) by lra. apply Rle_trans with ((2 * 40000 + 1) * 20); [apply Rmult_le_compat; try lra; apply Rabs_pos|lra]. }
  { apply Rle_trans with (p2 60); [cbn; lra|apply bpow_le; lia]. }
  split; [exact F3|]. rewrite (Rabs_pos_eq (val gi)) in V3 by lra.
  replace (val (Mul y gi) - val x * (t * s)) with ((val (Mul y gi) - val y * val gi) + val y * (val gi - s) + (val y - val x * t) * s) by ring.
  replace (Rabs (val x) * (t * s)) with (m * s) by (unfold m; ring).
  eapply Rle_trans; [apply Rabs_triang|]. eapply Rle_trans; [apply Rplus_le_compat_r, Rabs_triang|]. rewrite (Rabs_mult (val y)), (Rabs_mult _ s), (Rabs_pos_eq s) by lra.
  assert (D : Rabs (val gi - s) <= / 2 ^ 19 * s) by (apply Rabs_le; lra). set (ay := Rabs (val y)) in *. assert (AY0 : 0 <= ay) by apply Rabs_pos.
  assert (M1 : ay * Rabs (val gi - s) <= ay * (/ 2 ^ 19 * s)) by (apply Rmult_le_compat_l; assumption).
  assert (M2 : ru * (ay * val gi) <= ru * (ay * (2 * s))). { apply Rmult_le_compat_l; [apply Rlt_le, ru_b|]. apply Rmult_le_compat_l; lra. }
  assert (M3 : Rabs (val y - val x * t) * s <= (/ 2 ^ 18 * m + rt) * s) by (apply Rmult_le_compat_r; lra).
  assert (S2 : ru * 2 <= / 2 ^ 19) by (rewrite ru_eq; lra).
  assert (M4 : ru * (ay * (2 * s)) <= / 2 ^ 19 * (ay * s)). { replace (ru * (ay * (2 * s))) with (ru * 2 * (ay * s)) by ring. apply Rmult_le_compat_r; [apply Rmult_le_pos; lra|exact S2]. }
  assert (M5 : ay * s <= (2 * m + rt) * s) by (apply Rmult_le_compat_r; nra).
  assert (M6 : rt * s <= rt * 10) by (apply Rmult_le_compat_l; lra). assert (MS : 0 <= m * s) by (apply Rmult_le_pos; lra).
  assert (M7 : / 2 ^ 18 * (ay * s) <= / 2 ^ 18 * (2 * (m * s) + rt * 10)). { apply Rmult_le_compat_l; [lra|]. lra. }
  replace (/ 2 ^ 18) with (/ 2 ^ 19 + / 2 ^ 19) in * by lra. lra.
Qed.

(** A coefficient in the range of the coder. *)
Definition codable (y : f32) : Prop := fin y /\ Rabs (val y) <= 33000.
Lemma scaled_codable e h t x y : scaled_to e h t x y -> 0 <= e <= / 1000 -> h <= 1 -> 0 <= t -> Rabs (val x) * t <= 32768 -> codable y.
Proof.
  intros (F & S) He Hh Ht H. split; [exact F|]. replace (val y) with ((val y - val x * t) + val x * t) by ring.
  eapply Rle_trans; [apply Rabs_triang|]. rewrite (Rabs_mult (val x) t), (Rabs_pos_eq t) by exact Ht. set (m := Rabs (val x) * t) in *.
  assert (0 <= m) by (apply Rmult_le_pos; [apply Rabs_pos|exact Ht]). assert (e * m <= / 1000 * 32768) by (apply Rmult_le_compat; lra). lra.
Qed.
Lemma codable_units y : codable y -> exists u, f32_units y = Some u /\ IZR u = val y * p2 149 /\ coded_f32 false u /\ (Z.abs u <= 33000 * one)%Z.
Proof.
  intros (F & B). destruct (units_ok y F) as (u & Eu & Vu & Fu). exists u. split; [exact Eu|]. split; [exact Vu|].
  assert (U : (Z.abs u <= 33000 * one)%Z).
  { apply le_IZR. rewrite abs_IZR, Vu, Rabs_mult, (Rabs_pos_eq (p2 149)) by apply bpow_ge_0. rewrite mult_IZR. change (IZR one) with (IZR (Zpower radix2 149)). rewrite IZR_Zpower by lia.
    apply Rmult_le_compat_r; [apply bpow_ge_0|exact B]. }
  split; [|exact U]. split; [exact Fu|]. change (2 ^ (if false then 23 else 16) - 1)%Z with 65535%Z. assert (0 < one)%Z by reflexivity. lia.
Qed.
Lemma all_units x : Forall codable x -> exists us, all_some (map f32_units x) = Some us /\ length us = length x /\
  Forall2 (fun y u => IZR u = val y * p2 149) x us /\ Forall (coded_f32 false) us /\ Forall (fun u => (Z.abs u <= 33000 * one)%Z) us.
Proof.
  induction 1 as [|y x H _ IH]; cbn [map all_some]; [exists nil; repeat split; constructor|].
  destruct IH as (us & E & L & F2 & F1 & F3). destruct (codable_units y H) as (u & Eu & Vu & Cu & Bu). rewrite Eu, E. cbn [bind]. exists (u :: us).
  split; [reflexivity|]. split; [cbn; lia|]. repeat split; constructor; assumption.
Qed.
Lemma all_firstn {A} n : forall (l : list (option A)) r, all_some l = Some r -> all_some (firstn n l) = Some (firstn n r).
Proof.
  induction n as [|n IH]; intros [|o l] r H; cbn [firstn all_some] in *; try (injection H as <-; reflexivity); [reflexivity|].
  destruct o as [a|]; [|discriminate]. cbn [bind] in *. destruct (all_some l) as [r'|] eqn:E; [|discriminate]. cbn [bind] in H. injection H as <-. rewrite (IH l r' E). reflexivity.
Qed.

Lemma quant_bound u : coded_f32 false u -> (Z.abs (quant rnd false u) < 2 ^ 16)%Z.
Proof.
  intros (F & B). destruct (quant_f32 false u F B ltac:(discriminate)) as (Hq & _). assert (Ho : (0 < one)%Z) by reflexivity.
  assert (Hz : (one - zero_below false < one)%Z) by (vm_compute; reflexivity). change (2 ^ (if false then 23 else 16) - 1)%Z with 65535%Z in B.
  set (q := Z.abs (quant rnd false u)) in *. nia.
Qed.

Lemma nbits32_ok dt sr nbytes x n b us : is_hr sr = false -> all_some (map f32_units x) = Some us -> length us = length x -> Forall (coded_f32 false) us ->
  (0 <= n <= zlen x)%Z -> (n <= c_ne dt sr)%Z -> Z.even n = true ->
  let q := map (quant rnd false) (firstn (Z.to_nat n) us) in
  spectrum_ok dt sr q /\ zlen q = n /\ nbits32 dt sr nbytes x n b = Some (compute_nbits dt sr nbytes q b).
Proof.
  intros Hr E L F Hn Hn2 He. cbv zeta. set (us' := firstn (Z.to_nat n) us).
  assert (Zq : zlen (map (quant rnd false) us') = n). { unfold zlen in *. rewrite map_length. unfold us'. rewrite firstn_length. lia. }
  assert (Fq : Forall (fun v => (Z.abs v < 2 ^ 16)%Z) (map (quant rnd false) us')).
  { apply Forall_map. rewrite Forall_forall in *. intros u Hu. apply quant_bound, F. unfold us' in Hu. rewrite <- (firstn_skipn (Z.to_nat n) us). apply in_or_app. left. exact Hu. }
  split; [|split; [exact Zq|]].
  - unfold spectrum_ok. rewrite Zq, Hr. repeat split; assumption.
  - unfold nbits32. rewrite <- firstn_map, (all_firstn _ _ _ E). cbn [bind]. fold us'. rewrite Hr. replace (forallb _ _) with true; [reflexivity|]. symmetry. apply forallb_forall.
    intros v Hv. rewrite Forall_forall in Fq. specialize (Fq v Hv). lia.
Qed.

Lemma pairs_sig_len lim : forall n x, length x = (2 * n)%nat -> length (pairs_sig lim x) = n.
Proof.
  induction n as [|n IH]; intros x H; [destruct x; [reflexivity|discriminate H]|]. destruct x as [|a [|b x]]; try (cbn in H; lia). cbn [pairs_sig length]. rewrite IH; [reflexivity|cbn in H; lia].
Qed.
Lemma ne_even dt sr : (0 <= dt <= 3)%Z -> (0 <= sr < 5)%Z -> (c_ne dt sr mod 4 = 0 /\ 20 <= c_ne dt sr <= 480)%Z.
Proof.
  intros Hd Hs. assert (C : forallb (fun dt => forallb (fun sr => (c_ne dt sr mod 4 =? 0) && (20 <=? c_ne dt sr) && (c_ne dt sr <=? 480)) [0; 1; 2; 3; 4])%Z [0; 1; 2; 3]%Z = true) by (vm_compute; reflexivity).
  rewrite forallb_forall in C. assert (I : In dt [0; 1; 2; 3]%Z) by (cbn [In]; lia). specialize (C dt I). cbv beta in C. rewrite forallb_forall in C. assert (J : In sr [0; 1; 2; 3; 4]%Z) by (cbn [In]; lia). specialize (C sr J). cbv beta in C. lia.
Qed.
Lemma nq_ok dt sr lim x : (0 <= dt <= 3)%Z -> (0 <= sr < 5)%Z -> zlen x = c_ne dt sr ->
  let nq := count_nq (c_ne dt sr) (c_ne dt sr) (pairs_sig lim x) in (0 <= nq <= c_ne dt sr)%Z /\ Z.even nq = true.
Proof.
  intros Hd Hs Hx. destruct (ne_even dt sr Hd Hs) as (E4 & En). cbv zeta.
  assert (L : zlen (pairs_sig lim x) = (c_ne dt sr / 2)%Z).
  { unfold zlen in *. rewrite (pairs_sig_len lim (Z.to_nat (c_ne dt sr / 2))); [rewrite Z2Nat.id; [reflexivity|Z.div_mod_to_equations; lia]|Z.div_mod_to_equations; lia]. }
  destruct (C37_significants dt sr (pairs_sig lim x) L) as (A & B & _); [Z.div_mod_to_equations; lia|]. split; [exact B|]. rewrite Zeven_mod, A. reflexivity.
Qed.

(** ** The analysis *)
(** A coefficient in the range of the analysis: below 1480000, and in the range of the quantizer
    with the last gain. *)
Definition in_range (sr nbytes : Z) (v : f32) : Prop :=
  fin v /\ Rabs (val v) <= x_bound /\ Rabs (val v) <= 32766 * ten (255 - gain_offset sr nbytes).

Lemma gain_limit sr nbytes x gm G : is_hr sr = false -> (-255 <= gm <= G)%Z -> (G <= 255)%Z -> Forall (in_range sr nbytes) x ->
  (gm = 255 - gain_offset sr nbytes)%Z \/ fits32 sr (Bsqrt mode_NE (square_max x)) gm = true ->
  Forall (fun v => Rabs (val v) * ten (- G) <= 32768) x.
Proof.
  intros Hr Hg HG Hx Hf.
  assert (T : ten gm * ten (- G) <= 1). { rewrite <- ten_add. rewrite <- ten_0. apply ten_le. lia. }
  assert (T1 : 0 < ten (- G) <= 10000000000) by (apply ten_big; lia). assert (T0 : 0 < ten gm) by apply ten_pos.
  destruct Hf as [->|Hf].
  - apply Forall_forall. intros v Hv. rewrite Forall_forall in Hx. destruct (Hx v Hv) as (_ & _ & B). set (t := ten (255 - gain_offset sr nbytes)) in *. set (s := ten (- G)) in *. clearbody t s.
    apply Rle_trans with (32766 * t * s); [apply Rmult_le_compat_r; lra|]. rewrite Rmult_assoc. lra.
  - destruct (x_max_ok x x_bound) as (Fm & Pm & M).
    { eapply Forall_impl; [|exact Hx]. intros v (A & B & _). auto. }
    { unfold x_bound. apply Rle_trans with (p2 60); [cbn; lra|apply bpow_le; lia]. }
    { unfold x_bound. lra. }
    pose proof (fits32_value sr _ gm Hr ltac:(lia) Fm Hf) as V. set (m := val (Bsqrt mode_NE (square_max x))) in *. clearbody m. set (t := ten gm) in *. set (s := ten (- G)) in *. clearbody t s.
    eapply Forall_impl; [|exact M]. intros v [A|A]; cbv beta.
    + apply Rle_trans with (p2 (-50) * 10000000000); [apply Rmult_le_compat; try lra; apply Rabs_pos|]. apply Rle_trans with (p2 (-34) * 10000000000); [apply Rmult_le_compat_r; [lra|apply bpow_le; lia]|]. cbn. lra.
    + apply Rle_trans with ((1 + / 1000000) * ((1 + / 100000) * (32767 * t)) * s); [apply Rmult_le_compat_r; lra|].
      replace ((1 + / 1000000) * ((1 + / 100000) * (32767 * t)) * s) with ((1 + / 1000000) * (1 + / 100000) * 32767 * (t * s)) by ring.
      apply Rle_trans with ((1 + / 1000000) * (1 + / 100000) * 32767 * 1); [apply Rmult_le_compat_l; lra|lra].
Qed.

Lemma quantize32_ok dt sr g x : (-255 <= g <= 255)%Z -> exists gi, gain32 (- g) = Some gi /\
  quantize32 dt sr g x = Some (map (fun v => Mul v gi) x, count_nq (c_ne dt sr) (c_ne dt sr) (pairs_sig (if is_hr sr then f32_dy 1 1 else f32_dy 5 3) (map (fun v => Mul v gi) x))).
Proof. intros H. destruct (gain32_ok (- g) ltac:(lia)) as (gi & E & _). exists gi. split; [exact E|]. unfold quantize32. rewrite E. reflexivity. Qed.

(** What the analysis gives, of the coefficients [x]. *)
Definition analyzed (dt sr nbytes budget : Z) (x : list f32) (side : spec_side) (us : list Z) : Prop :=
  (0 <= q_nq side <= c_ne dt sr)%Z /\ Z.even (q_nq side) = true /\ (0 <= q_gidx side < 256)%Z /\
  Forall (coded_f32 false) us /\ Forall (fun u => (Z.abs u <= 33000 * one)%Z) us /\
  Forall2 (fun v u => let t := ten (- (q_gidx side - gain_offset sr nbytes)) in Rabs (IZR u * p2 (-149) - val v * t) <= / 2 ^ 16 * (Rabs (val v) * t) + p2 (-146)) x us /\
  exists n b, (q_nq side <= n <= zlen us)%Z /\ spectrum_ok dt sr (map (quant rnd false) (firstn (Z.to_nat n) us)) /\
    compute_nbits dt sr nbytes (map (quant rnd false) (firstn (Z.to_nat n) us)) budget = (q_nq side, b, q_lsb side).

Lemma scaled_units e h t x y u : scaled_to e h t x y -> IZR u = val y * p2 149 -> Rabs (IZR u * p2 (-149) - val x * t) <= e * (Rabs (val x) * t) + h.
Proof. intros (_ & S) E. rewrite E, Rmult_assoc, <- bpow_plus. cbn [Z.add Z.pos_sub]. change (p2 (149 + -149)) with 1. rewrite Rmult_1_r. exact S. Qed.

Lemma rt_146 : 16 * rt <= p2 (-146).
Proof. right. unfold rt. change (-146)%Z with (4 + -150)%Z. rewrite bpow_plus. f_equal. Qed.

Lemma even_prefix dt sr nbytes xs b n nb l : (0 <= dt <= 3)%Z -> (0 <= b < 2 ^ 20)%Z -> spectrum_ok dt sr xs -> compute_nbits dt sr nbytes xs b = (n, nb, l) ->
  (0 <= n <= zlen xs)%Z /\ Z.even n = true.
Proof.
  intros Hd Hb Hx H. destruct (small24_of dt sr xs Hd Hx) as (Hs & Hl). destruct (resolve_modes sr nbytes) as [lm high] eqn:Em.
  destruct (pairs_full dt sr nbytes xs b n nb l lm high Hb Hs Hl (proj1 (proj2 Hx)) Em H) as (m & e & l' & Hm & -> & Hn & _). split; [lia|]. rewrite Z.even_mul. reflexivity.
Qed.

Lemma analyze32_ok nan dt sr nbytes pitch tns st x : (0 <= dt <= 3)%Z -> (0 <= sr < 5)%Z -> (0 <= nbytes <= 400)%Z ->
  let budget := spec_budget dt sr nbytes pitch tns in
  (0 < budget <= 5000)%Z -> spec_ok st -> zlen x = c_ne dt sr -> Forall (in_range sr nbytes) x ->
  exists side y us st', analyze32 nan dt sr nbytes pitch tns st x = Some (side, y, st') /\ spec_ok st' /\ all_some (map f32_units y) = Some us /\ zlen us = c_ne dt sr /\
    analyzed dt sr nbytes budget x side us.
Proof.
  intros Hd Hs Hnb budget Hbud Hst Hlen Hx. assert (Hr : is_hr sr = false) by (unfold is_hr, SRATE_48K_HR; lia).
  destruct (ne_even dt sr Hd Hs) as (E4 & En). pose proof (gain_offset_range sr nbytes ltac:(lia) ltac:(lia)) as Ho.
  assert (Hxb : Forall (fun v => fin v /\ Rabs (val v) <= x_bound) x) by (eapply Forall_impl; [|exact Hx]; intros v (A & B & _); auto).
  unfold analyze32. fold budget. pose proof (next_off_ok st Hst) as Hoff. set (off := next_off st) in *. clearbody off. set (g_off := gain_offset sr nbytes) in *.
  assert (EE : exists g gm reset, estimate32 nan dt sr nbytes budget off g_off x = Some (g, gm, reset) /\ (- g_off <= gm <= g)%Z /\ (g <= 255 - g_off)%Z /\
    (gm = 255 - g_off \/ fits32 sr (Bsqrt mode_NE (square_max x)) gm = true)%Z).
  { unfold estimate32, noise_floor. rewrite Hr. cbn [bind].
    destruct (energies_ok nan (Z.to_nat (c_ne dt sr / 4)) x) as (es & db & Ee & Ed & Ld & Hdb); [unfold zlen in Hlen; Z.div_mod_to_equations; lia|exact Hxb|].
    rewrite Ee. cbn [bind]. rewrite Ed. cbn [bind].
    destruct (trunc_ok (Add (Add (f32_of_int budget) off) (f32_dy 1 1)) 5042) as (nbits & Et & Bt); [lia| |].
    { apply (bnd_weak (5041 + 1) 0); [|right; reflexivity]. apply bnd_add; [unfold kok; lia| |].
      - apply (bnd_add 5000 41); [unfold kok; lia| |exact Hoff]. apply (bnd_weak (Z.abs budget) 0); [apply of_int_bnd; lia|]. apply Rmult_le_compat_r; [apply bpow_ge_0|apply IZR_le; lia].
      - destruct (dy_exact 1 1) as (A & B); [lia|lia|]. split; [exact A|]. rewrite B, Rabs_pos_eq; cbn; lra. }
    rewrite Et. cbn [bind]. set (xm := Bsqrt mode_NE (square_max x)). 
    assert (Hi : gain_inputs sr nbytes nbits budget db).
    { unfold gain_inputs. split; [lia|]. split; [lia|]. split; [lia|]. split; [lia|]. split; [unfold zlen; Z.div_mod_to_equations; lia|]. intros e He. apply Hdb, He. }
    pose proof (P_Gain.estimate_ok sr nbytes nbits budget db (fits32 sr xm) (Beqb xm c0) Hi) as EG. cbv zeta in EG. fold g_off in EG.
    destruct EG as [(V & _)|(_ & g & gm & reset & E & R1 & R2 & M1 & _)].
    - exfalso. pose proof (C37_no_overflow dt sr nbytes db Hd ltac:(unfold SRATE_48K_HR; lia) ltac:(lia)) as N. unfold zlen in N at 1. rewrite Ld, Z2Nat.id in N by (apply Z.div_pos; lia).
      specialize (N eq_refl ltac:(intros e He; apply Hdb, He)). fold g_off in N. lia.
    - exists g, gm, reset. split; [exact E|]. split; [exact R1|]. split; [exact R2|exact M1]. }
  destruct EE as (g & gm & reset & E1 & R1 & R2 & M1). rewrite E1. cbn [bind]. clear E1.
  destruct (quantize32_ok dt sr g x ltac:(lia)) as (gi & Eg & Eq). rewrite Eq. cbn [bind]. clear Eq.
  set (y := map (fun v => Mul v gi) x). set (nq0 := count_nq _ _ _).
  assert (S1 : Forall2 (scaled_to (/ 2 ^ 18) rt (ten (- g))) x y).
  { unfold y. clear - Hxb Eg R1 R2 Ho. induction Hxb as [|v x (F & B) _ IH]; cbn [map]; constructor; [|exact IH]. apply scale_first; auto. lia. }
  pose proof (gain_limit sr nbytes x gm g Hr ltac:(lia) ltac:(lia) Hx M1) as L1.
  assert (T0 : 0 <= ten (- g)) by apply Rlt_le, ten_pos.
  pose proof rt_small as (R0 & R3). pose proof p2_100 as R4.
  assert (C1 : Forall codable y).
  { clear - S1 L1 T0 R0 R3 R4. induction S1 as [|v w x y S S1 IH]; constructor; [|apply IH; inversion L1; assumption]. apply (scaled_codable _ _ _ _ _ S); try lra. inversion L1; assumption. }
  assert (Ly : zlen y = c_ne dt sr) by (unfold y; rewrite zlen_map; exact Hlen).
  destruct (all_units y C1) as (us & Eu & Lu & U2 & Uc & Ub).
  destruct (nq_ok dt sr (if is_hr sr then f32_dy 1 1 else f32_dy 5 3) y Hd Hs Ly) as (N1 & N2). fold nq0 in N1, N2. clearbody nq0.
  destruct (nbits32_ok dt sr nbytes y nq0 0 us Hr Eu Lu Uc ltac:(lia) ltac:(lia) N2) as (Sp & Zq & En32). cbv zeta in *. rewrite En32. cbn [bind].
  set (q1 := map (quant rnd false) (firstn (Z.to_nat nq0) us)) in *.
  destruct (compute_nbits dt sr nbytes q1 0) as [[nq1 nbits] l1] eqn:E0.
  pose proof (C26_counts_bounded dt sr nbytes q1 0 nq1 nbits l1 Hd ltac:(lia) Sp E0) as Bn.
  destruct (even_prefix dt sr nbytes q1 0 nq1 nbits l1 Hd ltac:(lia) Sp E0) as (P1 & P2).
  destruct (adjust_ok dt sr (g_off + g) nbits budget (g_off + gm)) as (a & Ea & Ra & Rb & Rc); try lia.
  rewrite Ea. cbn [bind]. assert (Ra1 : (-1 <= a)%Z). { destruct (Z_lt_le_dec budget nbits) as [C|C]; [destruct (Rb C); lia|destruct (Rc C); lia]. }
  set (st' := if reset then mkSpecSt c0 0 else mkSpecSt off (budget - nbits)).
  assert (St' : spec_ok st'). { unfold st'. destruct reset; [apply spec_init_ok|]. split; [exact Hoff|]. cbn [s_spare]. lia. }
  clearbody st'.
  assert (FF : exists y2 n2, (if (a =? 0)%Z then Some (y, nq1) else quantize32 dt sr a y) = Some (y2, n2) /\ (0 <= n2 <= c_ne dt sr)%Z /\ Z.even n2 = true /\ zlen y2 = c_ne dt sr /\
    Forall2 (scaled_to (/ 2 ^ 16) (16 * rt) (ten (- (g + a)))) x y2).
  { destruct (Z.eqb_spec a 0) as [A0|A0].
    - exists y, nq1. split; [reflexivity|]. split; [lia|]. split; [exact P2|]. split; [exact Ly|]. subst a. rewrite Z.add_0_r.
      clear - S1 T0 R0. induction S1 as [|v w x y (F & S) S1 IH]; constructor; [|exact IH]. split; [exact F|]. eapply Rle_trans; [exact S|].
      assert (0 <= Rabs (val v) * ten (- g)) by (apply Rmult_le_pos; [apply Rabs_pos|exact T0]). lra.
    - destruct (quantize32_ok dt sr a y ltac:(lia)) as (gi2 & Eg2 & Eq2). rewrite Eq2. do 2 eexists. split; [reflexivity|].
      assert (Ly2 : zlen (map (fun v => Mul v gi2) y) = c_ne dt sr) by (rewrite zlen_map; exact Ly).
      destruct (nq_ok dt sr (if is_hr sr then f32_dy 1 1 else f32_dy 5 3) _ Hd Hs Ly2) as (N3 & N4). split; [exact N3|]. split; [exact N4|]. split; [exact Ly2|].
      replace (ten (- (g + a))) with (ten (- g) * ten (- a)) by (rewrite <- ten_add; f_equal; lia).
      clear - S1 L1 T0 Eg2 Ra1 Ra Ho R1 R2. induction S1 as [|v w x y S S1 IH]; cbn [map]; constructor; [|apply IH; inversion L1; assumption].
      apply (scale_second v w (ten (- g)) a gi2 32768 S T0); [inversion L1; assumption|lra|lia|exact Eg2]. }
  destruct FF as (y2 & n2 & EF & N3 & N4 & Ly2 & S2). rewrite EF. cbn [bind].
  pose proof (gain_limit sr nbytes x gm (g + a) Hr ltac:(lia) ltac:(lia) Hx M1) as L2.
  assert (C2 : Forall codable y2).
  { assert (T2 : 0 <= ten (- (g + a))) by apply Rlt_le, ten_pos. clear - S2 L2 T2 R0 R3 R4. induction S2 as [|v w x y S S1 IH]; constructor; [|apply IH; inversion L2; assumption]. apply (scaled_codable _ _ _ _ _ S); try lra. inversion L2; assumption. }
  destruct (all_units y2 C2) as (us2 & Eu2 & Lu2 & U22 & Uc2 & Ub2).
  destruct (nbits32_ok dt sr nbytes y2 n2 budget us2 Hr Eu2 Lu2 Uc2 ltac:(lia) ltac:(lia) N4) as (Sp2 & Zq2 & En2). cbv zeta in *. rewrite En2. cbn [bind].
  set (q2 := map (quant rnd false) (firstn (Z.to_nat n2) us2)) in *. destruct (compute_nbits dt sr nbytes q2 budget) as [[nq2 nb2] lsb] eqn:E2.
  destruct (even_prefix dt sr nbytes q2 budget nq2 nb2 lsb Hd ltac:(lia) Sp2 E2) as (P3 & P4).
  exists (mkSide nq2 lsb (g + a + g_off)), y2, us2, st'. split; [reflexivity|]. split; [exact St'|]. split; [exact Eu2|].
  assert (Zu : zlen us2 = c_ne dt sr) by (unfold zlen in *; lia). split; [exact Zu|].
  unfold analyzed. cbn [q_nq q_gidx q_lsb]. split; [lia|]. split; [exact P4|]. split; [lia|]. split; [exact Uc2|]. split; [exact Ub2|]. split.
  - fold g_off. replace (g + a + g_off - g_off)%Z with (g + a)%Z by lia. cbv zeta. pose proof rt_146 as R146. clear - S2 U22 R146. revert us2 U22. induction S2 as [|v w x y S S2 IH]; intros us2 U22; inversion U22; subst; constructor.
    + eapply Rle_trans; [eapply scaled_units; eassumption|lra].
    + apply IH. assumption.
  - exists n2, nb2. split; [lia|]. split; [exact Sp2|exact E2].
Qed.
