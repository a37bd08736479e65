(** * Stability of the TNS synthesis, on the real numbers *)
From Coq Require Import Reals ZArith List Bool Lia Lra ZifyBool.
From Verif Require Import Base BaseProofs ConfigModel SideModel ShapeTables FloatOps RealOps LoopProofs TnsModel TnsProofs TnsFilter.
Import ListNotations.
Local Open Scope R_scope.

Definition sumsq (l : list R) : R := fold_right (fun x s => x * x + s) 0 l.

(** Gain of the prediction: product of the 1 - r^2. *)
Fixpoint damp (rc : list R) : R := match rc with [] => 1 | r :: rc => (1 - r * r) * damp rc end.

(** Energy of a state: sum of the s_k^2 / W_k, W_k the product of the 1 - r_j^2, j < k. *)
Fixpoint energy (w : R) (rc s : list R) : R :=
  match rc, s with r :: rc, v :: s => v * v / w + energy (w * (1 - r * r)) rc s | _, _ => 0 end.

Lemma lattice_step f' s r w : 0 < w -> r * r < 1 ->
  let f := f' - s * r in let b := s + r * f in f * f / w - s * s / w = f' * f' / (w * (1 - r * r)) - b * b / (w * (1 - r * r)).
Proof. intros Hw Hr f b. unfold b, f. field. split; lra. Qed.

Lemma sq_div_nonneg v w : 0 < w -> 0 <= v * v / w.
Proof. intros H. apply Rmult_le_pos; [apply Rle_0_sqr|]. left. apply Rinv_0_lt_compat. exact H. Qed.

Lemma wpos w r : 0 < w -> r * r < 1 -> 0 < w * (1 - r * r).
Proof. intros. apply Rmult_lt_0_compat; lra. Qed.

(** A coefficient of the inverse filter. *)
Lemma inverse_coeff_energy rc i s x : zlen rc = 8%Z -> zlen s = 8%Z -> Forall (fun r => r * r < 1) rc -> (0 <= i < zlen x)%Z ->
  exists v y s', rd x i = Some v /\ inverse_coeff Rops rc i (s, x) = Some (s', upd x i y) /\ zlen s' = 8%Z /\
    energy 1 rc s' <= energy 1 rc s + v * v / damp rc /\ y * y <= energy 1 rc s'.
Proof.
  intros Lr Ls Fr Hi. destruct (rd_ok x i Hi) as (v & V). exists v.
  destruct (list8 _ Lr) as (r0 & r1 & r2 & r3 & r4 & r5 & r6 & r7 & ->). destruct (list8 _ Ls) as (s0 & s1 & s2 & s3 & s4 & s5 & s6 & s7 & ->). clear Lr Ls.
  repeat match goal with H : Forall _ (_ :: _) |- _ => inversion H; clear H; subst end.
  set (f7 := v - s7 * r7). set (b8 := s7 + r7 * f7).
  set (f6 := f7 - s6 * r6). set (b7 := s6 + r6 * f6). set (f5 := f6 - s5 * r5). set (b6 := s5 + r5 * f5).
  set (f4 := f5 - s4 * r4). set (b5 := s4 + r4 * f4). set (f3 := f4 - s3 * r3). set (b4 := s3 + r3 * f3).
  set (f2 := f3 - s2 * r2). set (b3 := s2 + r2 * f2). set (f1 := f2 - s1 * r1). set (b2 := s1 + r1 * f1).
  set (f0 := f1 - s0 * r0). set (b1 := s0 + r0 * f0).
  exists f0, [f0; b1; b2; b3; b4; b5; b6; b7]. split; [exact V|]. split.
  { apply (inverse_coeff_scalar Rops _ _ _ _ _ _ _ V). unfold inv_scalar. cbv -[Rminus Rplus Rmult f0 f1 f2 f3 f4 f5 f6 f7 b1 b2 b3 b4 b5 b6 b7 b8]. reflexivity. }
  split; [reflexivity|]. cbn [energy damp].
  set (w1 := 1 * (1 - r0 * r0)). assert (W1 : 0 < w1) by (apply wpos; lra). set (w2 := w1 * (1 - r1 * r1)). assert (W2 : 0 < w2) by (apply wpos; assumption).
  set (w3 := w2 * (1 - r2 * r2)). assert (W3 : 0 < w3) by (apply wpos; assumption). set (w4 := w3 * (1 - r3 * r3)). assert (W4 : 0 < w4) by (apply wpos; assumption).
  set (w5 := w4 * (1 - r4 * r4)). assert (W5 : 0 < w5) by (apply wpos; assumption). set (w6 := w5 * (1 - r5 * r5)). assert (W6 : 0 < w6) by (apply wpos; assumption).
  set (w7 := w6 * (1 - r6 * r6)). assert (W7 : 0 < w7) by (apply wpos; assumption). set (w8 := w7 * (1 - r7 * r7)). assert (W8 : 0 < w8) by (apply wpos; assumption).
  replace ((1 - r0 * r0) * ((1 - r1 * r1) * ((1 - r2 * r2) * ((1 - r3 * r3) * ((1 - r4 * r4) * ((1 - r5 * r5) * ((1 - r6 * r6) * ((1 - r7 * r7) * 1)))))))) with w8
    by (unfold w8, w7, w6, w5, w4, w3, w2, w1; ring).
  assert (E0 := lattice_step f1 s0 r0 1 ltac:(lra) ltac:(assumption)). assert (E1 := lattice_step f2 s1 r1 w1 W1 ltac:(assumption)).
  assert (E2 := lattice_step f3 s2 r2 w2 W2 ltac:(assumption)). assert (E3 := lattice_step f4 s3 r3 w3 W3 ltac:(assumption)).
  assert (E4 := lattice_step f5 s4 r4 w4 W4 ltac:(assumption)). assert (E5 := lattice_step f6 s5 r5 w5 W5 ltac:(assumption)).
  assert (E6 := lattice_step f7 s6 r6 w6 W6 ltac:(assumption)). assert (E7 := lattice_step v s7 r7 w7 W7 ltac:(assumption)).
  fold w1 in E0. fold w2 in E1. fold w3 in E2. fold w4 in E3. fold w5 in E4. fold w6 in E5. fold w7 in E6. fold w8 in E7.
  cbv zeta in *. fold f0 b1 in E0. fold f1 b2 in E1. fold f2 b3 in E2. fold f3 b4 in E3. fold f4 b5 in E4. fold f5 b6 in E5. fold f6 b7 in E6. fold f7 b8 in E7.
  pose proof (sq_div_nonneg b8 w8 W8). pose proof (sq_div_nonneg b7 w7 W7). pose proof (sq_div_nonneg b6 w6 W6). pose proof (sq_div_nonneg b5 w5 W5).
  pose proof (sq_div_nonneg b4 w4 W4). pose proof (sq_div_nonneg b3 w3 W3). pose proof (sq_div_nonneg b2 w2 W2). pose proof (sq_div_nonneg b1 w1 W1).
  assert (f0 * f0 / 1 = f0 * f0) by field.
  clearbody f0 f1 f2 f3 f4 f5 f6 f7 b1 b2 b3 b4 b5 b6 b7 b8 w1 w2 w3 w4 w5 w6 w7 w8. split; lra.
Qed.

Lemma zlen_nonneg {A} (l : list A) : (0 <= zlen l)%Z.
Proof. unfold zlen. lia. Qed.

Lemma sumsq_cons a l : sumsq (a :: l) = a * a + sumsq l.
Proof. reflexivity. Qed.
Lemma sumsq_nil : sumsq [] = 0.
Proof. reflexivity. Qed.
Lemma sumsq_nonneg l : 0 <= sumsq l.
Proof. induction l; rewrite ?sumsq_cons, ?sumsq_nil; [lra|]. pose proof (Rle_0_sqr a). unfold Rsqr in *. lra. Qed.
Lemma sumsq_app l m : sumsq (l ++ m) = sumsq l + sumsq m.
Proof. induction l; cbn [app]; rewrite ?sumsq_cons, ?sumsq_nil; lra. Qed.
Lemma firstn_snoc {A} (l : list A) n v : nth_error l n = Some v -> firstn (S n) l = firstn n l ++ [v].
Proof. revert n. induction l as [|a l IH]; intros [|n] H; try discriminate; cbn in *; [injection H as <-; reflexivity|]. f_equal. apply IH. exact H. Qed.
Definition head_sum (i : Z) (l : list R) : R := sumsq (firstn (Z.to_nat i) l).
Lemma head_sum_next i l v : (0 <= i)%Z -> rd l i = Some v -> head_sum (i + 1) l = head_sum i l + v * v.
Proof.
  intros Hi H. unfold head_sum. replace (Z.to_nat (i + 1)) with (S (Z.to_nat i)) by lia. unfold rd in H. destruct (i <? 0)%Z eqn:E; [discriminate|].
  rewrite (firstn_snoc _ _ _ H), sumsq_app. cbn. lra.
Qed.
Lemma head_sum_le i l : head_sum i l <= sumsq l.
Proof. unfold head_sum. rewrite <- (firstn_skipn (Z.to_nat i) l) at 2. rewrite sumsq_app. pose proof (sumsq_nonneg (skipn (Z.to_nat i) l)). lra. Qed.
Lemma head_sum_mono i j l : (0 <= i <= j)%Z -> head_sum i l <= head_sum j l.
Proof.
  intros H. unfold head_sum. replace (Z.to_nat j) with (Z.to_nat i + (Z.to_nat j - Z.to_nat i))%nat by lia. generalize (Z.to_nat j - Z.to_nat i)%nat. generalize (Z.to_nat i). clear.
  induction l as [|a l IH]; intros [|n] k; cbn [firstn Nat.add]; try (cbn; lra); try apply sumsq_nonneg. rewrite !sumsq_cons. specialize (IH n k). lra.
Qed.

Lemma damp_bounds rc : Forall (fun r => r * r < 1) rc -> 0 < damp rc <= 1.
Proof.
  induction 1 as [|r rc H _ IH]; cbn [damp]; [lra|]. pose proof (Rle_0_sqr r). unfold Rsqr in *. split; [apply Rmult_lt_0_compat; lra|].
  apply Rle_trans with (1 * 1); [apply Rmult_le_compat; lra|lra].
Qed.

(** The energy between the sum of the squares and its quotient by the product. *)
Lemma energy_bounds rc : Forall (fun r => r * r < 1) rc -> forall w s, 0 < w <= 1 -> length s = length rc ->
  sumsq s <= energy w rc s /\ energy w rc s <= sumsq s / (w * damp rc).
Proof.
  induction 1 as [|r rc Hr H IH]; intros w s Hw L; destruct s as [|v s]; try discriminate.
  - cbn. unfold Rdiv. lra.
  - cbn [energy damp]. rewrite sumsq_cons. pose proof (Rle_0_sqr r) as Q. unfold Rsqr in Q. pose proof (Rle_0_sqr v) as Qv. unfold Rsqr in Qv.
    pose proof (damp_bounds rc H) as D. assert (W : 0 < w * (1 - r * r) <= 1).
    { split; [apply wpos; lra|]. apply Rle_trans with (1 * 1); [apply Rmult_le_compat; lra|lra]. }
    destruct (IH (w * (1 - r * r)) s W) as [I1 I2]; [cbn in L; lia|]. split.
    + assert (v * v <= v * v / w); [|lra]. unfold Rdiv. rewrite <- (Rmult_1_r (v * v)) at 1. apply Rmult_le_compat_l; [lra|]. rewrite <- Rinv_1. apply Rinv_le_contravar; lra.
    + replace (w * ((1 - r * r) * damp rc)) with (w * (1 - r * r) * damp rc) by ring. rewrite Rdiv_plus_distr.
      assert (v * v / w <= v * v / (w * (1 - r * r) * damp rc)); [|lra]. unfold Rdiv. apply Rmult_le_compat_l; [lra|]. apply Rinv_le_contravar; [apply Rmult_lt_0_compat; lra|].
      apply Rle_trans with (w * 1 * 1); [|lra]. apply Rmult_le_compat; try lra. apply Rmult_le_compat; lra.
Qed.

(** The filter on the coefficients from [i]. *)
Lemma inverse_loop_energy rc n : zlen rc = 8%Z -> Forall (fun r => r * r < 1) rc -> forall i s x x0,
  zlen s = 8%Z -> (0 <= i)%Z -> (i + Z.of_nat n <= zlen x)%Z -> (forall j, (i <= j)%Z -> rd x j = rd x0 j) ->
  exists s' x', loop n (inverse_coeff Rops rc) i (s, x) = Some (s', x') /\ zlen s' = 8%Z /\ zlen x' = zlen x /\
    energy 1 rc s' <= energy 1 rc s + (head_sum (i + Z.of_nat n) x0 - head_sum i x0) / damp rc /\
    forall j, ((j < i \/ i + Z.of_nat n <= j)%Z -> rd x' j = rd x j) /\
      forall v, (i <= j < i + Z.of_nat n)%Z -> rd x' j = Some v -> v * v <= energy 1 rc s + (head_sum (i + Z.of_nat n) x0 - head_sum i x0) / damp rc.
Proof.
  intros Lr Fr. pose proof (damp_bounds rc Fr) as D. assert (DI : 0 < / damp rc) by (apply Rinv_0_lt_compat; lra).
  induction n as [|n IH]; intros i s x x0 Ls Hi Hn Hx.
  - exists s, x. cbn [loop]. spl; auto; [|intros j; split; [auto|lia]]. rewrite Z.add_0_r. unfold Rdiv. lra.
  - destruct (inverse_coeff_energy rc i s x Lr Ls Fr ltac:(lia)) as (v & y & s1 & V & E1 & L1 & G1 & Y1).
    destruct (IH (i + 1)%Z s1 (upd x i y) x0 L1 ltac:(lia)) as (s' & x' & E2 & L2 & L3 & G2 & G3).
    { rewrite upd_len. lia. }
    { intros j Hj. rewrite rd_upd by lia. replace (i =? j)%Z with false by lia. apply Hx. lia. }
    assert (HS : head_sum (i + 1) x0 = head_sum i x0 + v * v) by (apply head_sum_next; [lia|]; rewrite <- Hx by lia; exact V).
    assert (MS := head_sum_mono (i + 1) (i + 1 + Z.of_nat n) x0 ltac:(lia)).
    replace (i + 1 + Z.of_nat n)%Z with (i + Z.of_nat (S n))%Z in * by lia.
    assert (Q : energy 1 rc s1 + (head_sum (i + Z.of_nat (S n)) x0 - head_sum (i + 1) x0) / damp rc <= energy 1 rc s + (head_sum (i + Z.of_nat (S n)) x0 - head_sum i x0) / damp rc).
    { rewrite HS. unfold Rdiv in *. lra. }
    exists s', x'. cbn [loop]. rewrite E1. cbn [bind]. rewrite upd_len in L3. spl; auto; [lra|].
    intros j. destruct (G3 j) as [G4 G5]. split.
    + intros Hj. rewrite G4 by lia. rewrite rd_upd by lia. replace (i =? j)%Z with false by lia. reflexivity.
    + intros u Hj Hu. destruct (Z.eq_dec j i) as [->|N]; [|pose proof (G5 u ltac:(lia) Hu); lra].
      rewrite (proj1 (G3 i)) in Hu by lia. rewrite rd_upd in Hu by lia. rewrite Z.eqb_refl in Hu. injection Hu as <-.
      assert (0 <= (head_sum (i + Z.of_nat (S n)) x0 - head_sum (i + 1) x0) / damp rc) by (apply Rmult_le_pos; lra). lra.
Qed.

Lemma sumsq_clear s s' : zlen s' = zlen s -> (forall k v, rd s' k = Some v -> rd s k = Some v \/ v = 0) -> sumsq s' <= sumsq s.
Proof.
  revert s'. induction s as [|a s IH]; intros [|b s'] L H; unfold zlen in L; cbn in L; try lia; [cbn; lra|].
  rewrite !sumsq_cons.
  assert (I : sumsq s' <= sumsq s).
  { apply IH; [unfold zlen; lia|]. intros k v Hv. pose proof (rd_range _ _ _ Hv) as Hk. specialize (H (k + 1)%Z v). unfold rd in H, Hv |- *.
    destruct (k <? 0)%Z eqn:E; [lia|]. replace (k + 1 <? 0)%Z with false in H by lia. replace (Z.to_nat (k + 1)) with (S (Z.to_nat k)) in H by lia. cbn [nth_error] in H. auto. }
  destruct (H 0%Z b eq_refl) as [H0| ->]; [cbn in H0; injection H0 as <-; lra|]. pose proof (Rle_0_sqr a). unfold Rsqr in *. lra.
Qed.

(** ** The filters of a frame *)
Definition stable_filter (p : Z * list R) : Prop := (0 <= fst p <= 8)%Z /\ zlen (snd p) = 8%Z /\ Forall (fun r => r * r < 1) (snd p).
Definition all_damp (fs : list (Z * list R)) : R := fold_right (fun p d => damp (snd p) * d) 1 fs.

Lemma div_le a b w : a <= b -> 0 < w -> a / w <= b / w.
Proof. intros H W. apply Rmult_le_compat_r; [left; apply Rinv_0_lt_compat; exact W|exact H]. Qed.
Lemma div_ge_self a w : 0 <= a -> 0 < w <= 1 -> a <= a / w.
Proof.
  intros H W. unfold Rdiv. rewrite <- (Rmult_1_r a) at 1. apply Rmult_le_compat_l; [exact H|]. rewrite <- Rinv_1. apply Rinv_le_contravar; lra.
Qed.

(** A filter, the state [s] of sum of squares [B] at most. *)
Lemma inv_step_stable dt bw fs f p s x : tns_cfg dt bw -> (0 <= f < nfil dt bw)%Z -> rd fs f = Some p -> stable_filter p -> (tns_end dt bw <= zlen x)%Z -> zlen s = 8%Z ->
  let a := tns_start dt bw f in let b := (tns_nf dt bw * (1 + f))%Z in
  exists s' x', inv_step Rops dt bw fs f (s, x) = Some (s', x') /\ zlen s' = 8%Z /\ zlen x' = zlen x /\
    sumsq s' <= (sumsq s + (head_sum b x - head_sum a x)) / damp (snd p) /\
    (forall j, (j < a \/ b <= j)%Z -> rd x' j = rd x j) /\
    (forall j v, (a <= j < b)%Z -> rd x' j = Some v -> v * v <= (sumsq s + (head_sum b x - head_sum a x)) / damp (snd p)).
Proof.
  intros C Hf Hp (Ho & Lr & Fr) Lx Ls a b. destruct (start_end dt bw f C Hf) as [B1 B2]. fold a b in B1, B2. unfold inv_step. rewrite Hp. cbn [bind]. destruct p as [o rc]. cbn [fst snd] in *.
  pose proof (damp_bounds rc Fr) as D. pose proof (sumsq_nonneg s) as N0. pose proof (head_sum_mono a b x ltac:(lia)) as M0.
  destruct (o =? 0)%Z eqn:O0.
  - exists s, x. assert (G := div_ge_self (sumsq s + (head_sum b x - head_sum a x)) (damp rc) ltac:(lra) D). spl; auto; [lra|].
    intros j v Hj Hv. assert (S1 : v * v <= head_sum b x - head_sum a x); [|lra].
    pose proof (head_sum_next j x v ltac:(lia) Hv). pose proof (head_sum_mono (j + 1) b x ltac:(lia)). pose proof (head_sum_mono a j x ltac:(lia)). lra.
  - destruct (inverse_loop_energy rc (Z.to_nat (b - a)) Lr Fr a s x x Ls ltac:(lia) ltac:(lia) ltac:(auto)) as (s1 & x1 & E1 & L1 & L2 & G1 & G2).
    replace (a + Z.of_nat (Z.to_nat (b - a)))%Z with b in * by lia.
    destruct (energy_bounds rc Fr 1 s ltac:(lra)) as [_ U]; [unfold zlen in *; lia|]. destruct (energy_bounds rc Fr 1 s1 ltac:(lra)) as [U1 _]; [unfold zlen in *; lia|].
    rewrite Rmult_1_l in U.
    assert (T : energy 1 rc s + (head_sum b x - head_sum a x) / damp rc <= (sumsq s + (head_sum b x - head_sum a x)) / damp rc) by (unfold Rdiv in *; lra).
    fold a b. unfold for_. rewrite E1. cbn [bind]. destruct (clear_state Rops s1 o L1 Ho) as (s2 & E2 & L3 & C1 & C2). rewrite E2. cbn [bind].
    exists s2, x1. spl; auto.
    + apply Rle_trans with (sumsq s1); [|lra]. apply sumsq_clear; [lia|]. intros k v Hv. destruct (Z_lt_ge_dec k o) as [K|K]; [left; rewrite <- C1 by exact K; exact Hv|].
      right. pose proof (rd_range _ _ _ Hv). rewrite C2 in Hv by lia. injection Hv as <-. apply (Rops_z 0).
    + intros j Hj. apply (proj1 (G2 j)). exact Hj.
    + intros j v Hj Hv. pose proof (proj2 (G2 j) v Hj Hv). lra.
Qed.

Theorem inverse_stable dt bw fs x : tns_cfg dt bw -> (tns_end dt bw <= zlen x)%Z -> Forall stable_filter fs -> zlen fs = nfil dt bw ->
  exists y, inverse_filtering Rops dt bw fs x = Some y /\ zlen y = zlen x /\ (forall i, (i < 3 * (1 + dt) \/ tns_end dt bw <= i)%Z -> rd y i = rd x i) /\
    forall i v, rd y i = Some v -> v * v <= sumsq x / all_damp fs.
Proof.
  intros C L Hs Lf. unfold inverse_filtering. fold (nfil dt bw). match goal with |- context [for_ 0 _ ?g _] => change g with (inv_step Rops dt bw fs) end.
  pose proof (tns_nf_check dt bw C) as K. rewrite Forall_forall in Hs.
  assert (Z0 : sumsq (repeat (f_z Rops 0) 8) = 0) by (rewrite Rops_z; cbn; lra).
  assert (SQ : forall i v, rd x i = Some v -> v * v <= sumsq x).
  { intros i v Hv. pose proof (rd_range _ _ _ Hv). pose proof (head_sum_next i x v ltac:(lia) Hv). pose proof (head_sum_le (i + 1) x). pose proof (sumsq_nonneg (firstn (Z.to_nat i) x)). unfold head_sum in *. lra. }
  pose proof (sumsq_nonneg x) as NX.
  destruct (nfil_cases dt bw) as [N|N]; rewrite N in *; unfold for_.
  - change (Z.to_nat (1 - 0)) with 1%nat. destruct fs as [|p [|p2 fs]]; try (unfold zlen in Lf; cbn in Lf; lia).
    assert (Sp := Hs p (or_introl eq_refl)). destruct (start_end dt bw 0 C ltac:(lia)) as [S1 S2].
    assert (S3 : tns_start dt bw 0 = (3 * (1 + dt))%Z) by reflexivity.
    destruct (inv_step_stable dt bw [p] 0 p (repeat (f_z Rops 0) 8) x C ltac:(lia) eq_refl Sp L eq_refl) as (s' & x' & E & _ & L2 & _ & Q1 & Q2).
    cbn [loop]. rewrite E. cbn [bind snd]. exists x'. spl; auto. { intros i Hi. apply Q1. lia. }
    intros i v Hv. destruct Sp as (_ & _ & Fr). pose proof (damp_bounds _ Fr) as D. cbn [all_damp fold_right]. rewrite Rmult_1_r.
    destruct (Z_lt_ge_dec i (tns_start dt bw 0)); [|destruct (Z_lt_ge_dec i (tns_nf dt bw * (1 + 0)))].
    + rewrite Q1 in Hv by lia. pose proof (SQ _ _ Hv). pose proof (div_ge_self (sumsq x) _ NX D). lra.
    + pose proof (Q2 i v ltac:(lia) Hv) as B. rewrite Z0 in B. eapply Rle_trans; [exact B|]. apply div_le; [|lra].
      pose proof (head_sum_le (tns_nf dt bw * (1 + 0)) x). pose proof (sumsq_nonneg (firstn (Z.to_nat (tns_start dt bw 0)) x)). unfold head_sum in *. lra.
    + rewrite Q1 in Hv by lia. pose proof (SQ _ _ Hv). pose proof (div_ge_self (sumsq x) _ NX D). lra.
  - change (Z.to_nat (2 - 0)) with 2%nat. destruct fs as [|p [|p2 [|p3 fs]]]; try (unfold zlen in Lf; cbn in Lf; lia).
    assert (Sp := Hs p (or_introl eq_refl)). assert (Sp2 := Hs p2 (or_intror (or_introl eq_refl))).
    destruct (start_end dt bw 0 C ltac:(lia)) as [S1 S2]. destruct (start_end dt bw 1 C ltac:(lia)) as [S3 S4].
    assert (T0 : tns_start dt bw 0 = (3 * (1 + dt))%Z) by reflexivity. assert (T1 : tns_start dt bw 1 = (tns_nf dt bw * (1 + 0))%Z) by (unfold tns_start; cbn [Z.eqb]; lia).
    destruct (inv_step_stable dt bw [p; p2] 0 p (repeat (f_z Rops 0) 8) x C ltac:(lia) eq_refl Sp L eq_refl) as (s' & x' & E & Ls & L2 & G1 & Q1 & Q2).
    cbn [loop]. rewrite E. cbn [bind]. change (0 + 1)%Z with 1%Z.
    destruct (inv_step_stable dt bw [p; p2] 1 p2 s' x' C ltac:(lia) eq_refl Sp2 ltac:(lia) Ls) as (s2 & y & E2 & _ & L3 & _ & Q3 & Q4).
    rewrite E2. cbn [bind snd]. exists y. spl; [reflexivity|lia|intros i Hi; rewrite Q3, Q1 by lia; reflexivity|].
    destruct Sp as (_ & _ & Fr). destruct Sp2 as (_ & _ & Fr2). pose proof (damp_bounds _ Fr) as D. pose proof (damp_bounds _ Fr2) as D2.
    set (a := tns_start dt bw 0) in *. set (m := (tns_nf dt bw * (1 + 0))%Z) in *. set (b := (tns_nf dt bw * (1 + 1))%Z) in *. rewrite Z0 in *. rewrite T1 in *.
    (* the coefficients of the second filter are those of the spectrum *)
    assert (H2 : head_sum b x' - head_sum m x' = head_sum b x - head_sum m x).
    { assert (A : forall n, (m + Z.of_nat n <= b)%Z -> head_sum (m + Z.of_nat n) x' - head_sum m x' = head_sum (m + Z.of_nat n) x - head_sum m x).
      { induction n as [|n IH]; intros Hn; [rewrite Z.add_0_r; lra|]. destruct (rd_ok x (m + Z.of_nat n) ltac:(lia)) as (v & V).
        replace (m + Z.of_nat (S n))%Z with (m + Z.of_nat n + 1)%Z by lia. rewrite (head_sum_next (m + Z.of_nat n) x v ltac:(lia) V). rewrite (head_sum_next _ x' v); [|lia|rewrite Q1 by lia; exact V]. specialize (IH ltac:(lia)). lra. }
      specialize (A (Z.to_nat (b - m)) ltac:(lia)). replace (m + Z.of_nat (Z.to_nat (b - m)))%Z with b in A by lia. exact A. }
    assert (HA : 0 <= head_sum a x) by apply sumsq_nonneg. pose proof (head_sum_mono a m x ltac:(lia)). pose proof (head_sum_mono m b x ltac:(lia)). pose proof (head_sum_le b x).
    assert (W : damp (snd p) * damp (snd p2) = all_damp [p; p2]) by (cbn; ring). rewrite <- W.
    assert (WB : 0 < damp (snd p) * damp (snd p2) <= 1) by (split; [apply Rmult_lt_0_compat; lra|apply Rle_trans with (1 * 1); [apply Rmult_le_compat; lra|lra]]).
    pose proof (div_ge_self (sumsq x) _ NX WB) as GX.
    assert (B1 : (0 + (head_sum m x - head_sum a x)) / damp (snd p) <= sumsq x / (damp (snd p) * damp (snd p2))).
    { apply Rle_trans with ((head_sum m x - head_sum a x) / damp (snd p)); [unfold Rdiv; lra|]. apply Rle_trans with (sumsq x / damp (snd p)); [apply div_le; lra|].
      unfold Rdiv. apply Rmult_le_compat_l; [lra|]. apply Rinv_le_contravar; [lra|]. rewrite <- (Rmult_1_r (damp (snd p))) at 2. apply Rmult_le_compat_l; lra. }
    intros i v Hv. destruct (Z_lt_ge_dec i m) as [I|I]; [|destruct (Z_lt_ge_dec i b) as [J|J]].
    + rewrite Q3 in Hv by lia. destruct (Z_lt_ge_dec i a) as [J|J]; [rewrite Q1 in Hv by lia; pose proof (SQ _ _ Hv); lra|].
      pose proof (Q2 i v ltac:(lia) Hv). lra.
    + pose proof (Q4 i v ltac:(lia) Hv) as B. eapply Rle_trans; [exact B|]. replace (sumsq x / (damp (snd p) * damp (snd p2))) with (sumsq x / damp (snd p) / damp (snd p2)) by (field; lra).
      apply div_le; [|lra]. rewrite H2. pose proof (div_ge_self (head_sum b x - head_sum m x) (damp (snd p)) ltac:(lra) D).
      assert (sumsq x / damp (snd p) >= (head_sum m x - head_sum a x + (head_sum b x - head_sum m x)) / damp (snd p)); [|unfold Rdiv in *; lra].
      apply Rle_ge. apply div_le; lra.
    + rewrite Q3 in Hv by lia. rewrite Q1 in Hv by lia. pose proof (SQ _ _ Hv). lra.
Qed.
