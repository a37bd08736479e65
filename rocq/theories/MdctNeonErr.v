(** * Rounding errors of the NEON kernels of the FFT, with fused operations *)
From Coq Require Import Reals ZArith List Bool Lia Lra ZifyBool.
From Flocq Require Import Core.Core IEEE754.BinarySingleNaN.
From Verif Require Import Base BaseProofs FloatLaws F32Model F32Proofs SpecEncFloat ConfigModel MdctModel MdctProofs MdctFft MdctSpec MdctMath MdctExact MdctStream MdctWindows MdctFloat ErrNorm ErrF32 MdctErr MdctTabErr MdctErrCore MdctErrDct
  MdctNeonModel MdctNeonProofs MdctNeonStream MdctNeonF32Model MdctNeonFloat.
Local Open Scope R_scope.

(** ** Fused operations *)
Section Close.
Variable ell : R.
Hypothesis Hell : scale_ok ell.
Let E := ru * ell.
Let ellpos : 0 < ell. Proof. destruct Hell as (H & _). pose proof (bpow_gt_0 radix2 (-100)). lra. Qed.
Let Epos : 0 < E. Proof. unfold E. apply Rmult_lt_0_compat; [apply ru_b|exact ellpos]. Qed.

Lemma rnd_scale c k t r : 0 <= c <= 300 -> 0 <= k <= 4000 -> Rabs r <= c * ell -> Rabs (t - r) <= k * E -> Rabs (rnd32 t) < p2 128 /\ Rabs (rnd32 t - r) <= (k + c + / 2000) * E.
Proof.
  intros Hc Hk Hr Ht. pose proof ru_b as U. pose proof (rt_ell ell Hell) as T. fold E in T.
  assert (A : k * ru <= / 4000) by (apply Rle_trans with (4000 * / 16000000); [apply Rmult_le_compat; lra|lra]).
  assert (A1 : k * ru * E <= / 4000 * E) by (apply Rmult_le_compat_r; lra).
  assert (A2 : k * E <= ell). { unfold E. rewrite <- Rmult_assoc. rewrite <- (Rmult_1_l ell) at 2. apply Rmult_le_compat_r; lra. }
  assert (Bt : Rabs t <= c * ell + k * E) by (replace t with (r + (t - r)) by ring; eapply Rle_trans; [apply Rabs_triang|]; lra).
  assert (C1 : c * ell <= 300 * ell) by (apply Rmult_le_compat_r; lra).
  destruct (rnd_close t _ Bt) as (N & D).
  { destruct Hell as (_ & H2). assert (301 * ell <= p2 20 * p2 80) by (apply Rmult_le_compat; [lra|lra|cbn; lra|exact H2]). rewrite <- bpow_plus in H. change (20 + 80)%Z with 100%Z in H. lra. }
  split; [exact N|]. replace (rnd32 t - r) with ((rnd32 t - t) + (t - r)) by ring. eapply Rle_trans; [apply Rabs_triang|].
  assert (X : ru * (c * ell + k * E) = c * E + k * ru * E) by (unfold E; ring). rewrite X in D. lra.
Qed.
Lemma close_fma c1 c2 k1 k2 cw dw x y w r s om : 0 <= c1 <= 100 -> 0 <= c2 <= 100 -> 0 <= k1 <= 1000 -> 0 <= k2 <= 1000 -> 0 <= cw <= 2 -> 0 <= dw <= 2 ->
  close ell c1 k1 x r -> close ell c2 k2 y s -> tab_close cw dw w om ->
  close ell (c1 + c2 * cw) (k1 + k2 * cw + c2 * dw + (c1 + c2 * cw) + / 1000) (Fma x y w) (r + s * om).
Proof.
  intros Hc1 Hc2 Hk1 Hk2 Hcw Hdw (Fx & Ax & Bx) (Fy & Ay & By) (Fw & Aw & Bw). fold E in Bx, By. pose proof ru_b as U.
  assert (Q1 : 0 <= c2 * cw <= 100 * 2) by (split; [apply Rmult_le_pos; lra|apply Rmult_le_compat; lra]). assert (Q2 : 0 <= k2 * cw <= 1000 * 2) by (split; [apply Rmult_le_pos; lra|apply Rmult_le_compat; lra]).
  assert (Q3 : 0 <= c2 * dw <= 100 * 2) by (split; [apply Rmult_le_pos; lra|apply Rmult_le_compat; lra]). assert (Q4 : 0 <= k2 * dw <= 1000 * 2) by (split; [apply Rmult_le_pos; lra|apply Rmult_le_compat; lra]).
  assert (R : Rabs (r + s * om) <= (c1 + c2 * cw) * ell).
  { eapply Rle_trans; [apply Rabs_triang|]. rewrite Rabs_mult. assert (Rabs s * Rabs om <= c2 * ell * cw) by (apply Rmult_le_compat; try apply Rabs_pos; assumption). lra. }
  assert (D1 : 0 <= k2 * dw * ru <= / 8000) by (split; [apply Rmult_le_pos; lra|apply Rle_trans with (2000 * / 16000000); [apply Rmult_le_compat; lra|lra]]).
  assert (W : Rabs (val w) <= cw + dw * ru).
  { replace (val w) with (om + (val w - om)) by ring. eapply Rle_trans; [apply Rabs_triang|]. lra. }
  assert (D : Rabs (val y * val w + val x - (r + s * om)) <= (k1 + k2 * cw + c2 * dw + k2 * dw * ru) * E).
  { replace (val y * val w + val x - (r + s * om)) with ((val x - r) + ((val y - s) * val w + s * (val w - om))) by ring. eapply Rle_trans; [apply Rabs_triang|].
    assert (Rabs ((val y - s) * val w + s * (val w - om)) <= (k2 * cw + c2 * dw + k2 * dw * ru) * E); [|lra]. eapply Rle_trans; [apply Rabs_triang|]. rewrite !Rabs_mult.
    assert (Rabs (val y - s) * Rabs (val w) <= k2 * E * (cw + dw * ru)) by (apply Rmult_le_compat; try apply Rabs_pos; assumption).
    assert (G : Rabs s * Rabs (val w - om) <= c2 * ell * (dw * ru)) by (apply Rmult_le_compat; try apply Rabs_pos; assumption).
    replace (c2 * ell * (dw * ru)) with (c2 * dw * E) in G by (unfold E; ring). lra. }
  destruct (rnd_scale (c1 + c2 * cw) (k1 + k2 * cw + c2 * dw + k2 * dw * ru) _ _ ltac:(lra) ltac:(lra) R D) as (N & B).
  destruct (fma_val x y w Fx Fy Fw N) as (F & V). split; [exact F|]. split; [exact R|]. rewrite V. eapply Rle_trans; [exact B|]. fold E. apply Rmult_le_compat_r; lra.
Qed.
Lemma close_fms c1 c2 k1 k2 cw dw x y w r s om : 0 <= c1 <= 100 -> 0 <= c2 <= 100 -> 0 <= k1 <= 1000 -> 0 <= k2 <= 1000 -> 0 <= cw <= 2 -> 0 <= dw <= 2 ->
  close ell c1 k1 x r -> close ell c2 k2 y s -> tab_close cw dw w om ->
  close ell (c1 + c2 * cw) (k1 + k2 * cw + c2 * dw + (c1 + c2 * cw) + / 1000) (Fms x y w) (r - s * om).
Proof.
  intros Hc1 Hc2 Hk1 Hk2 Hcw Hdw Cx Cy Cw. replace (r - s * om) with (r + - s * om) by ring. apply (close_fma c1 c2 k1 k2 cw dw x (Bopp y) w r (- s) om); try assumption. apply close_opp, Cy.
Qed.
End Close.
Lemma tab_opp cw dw w om : tab_close cw dw w om -> tab_close cw dw (Bopp w) (- om).
Proof.
  intros (F & A & B). split; [unfold fin; rewrite is_finite_Bopp; exact F|]. rewrite Rabs_Ropp. split; [exact A|]. unfold val in *. rewrite B2R_Bopp. replace (- B2R w - - om) with (- (B2R w - om)) by ring. rewrite Rabs_Ropp. exact B.
Qed.

(** ** Kernels *)
Definition rfma (a b c : R) : R := a + b * c.
Definition rfms (a b c : R) : R := a - b * c.
Ltac tb := first [eassumption | eapply tab_opp; eassumption].
Ltac fcl Hell := lazymatch goal with
  | |- close _ _ _ (Add _ _) _ => eapply (close_add _ Hell); [| | | |fcl Hell|fcl Hell]
  | |- close _ _ _ (Sub _ _) _ => eapply (close_sub _ Hell); [| | | |fcl Hell|fcl Hell]
  | |- close _ _ _ (Fma _ _ _) _ => eapply (close_fma _ Hell); [| | | | | |fcl Hell|fcl Hell|tb]
  | |- close _ _ _ (Fms _ _ _) _ => eapply (close_fms _ Hell); [| | | | | |fcl Hell|fcl Hell|tb]
  | |- close _ _ _ (Bopp _) _ => eapply close_opp; fcl Hell
  | |- close _ _ _ _ _ => eapply close_in; eassumption
  end.
Ltac fclose_tac Hell := eapply close_weaken; [exact Hell| | |fcl Hell]; lra.

Section Kernels.
Variable ell : R.
Hypothesis Hell : scale_ok ell.

Lemma neon2_err x0 x1 w om r : cin ell x0 -> cin ell x1 -> ctab 1 (11 / 20) w om ->
  cclose ell (82 / 10) (neon2_out Bopp Fma Fms x0 x1 w r) (bf2_out Rplus Rminus Rmult (vc x0) (vc x1) om r).
Proof.
  intros ((F0 & F0') & A0 & A0') ((F1 & F1') & A1 & A1') (W & W').
  rewrite <- (neon2_out_eq 0 Rplus Rminus Rmult Ropp rfma rfms 1 RTheory ltac:(reflexivity) ltac:(reflexivity)).
  unfold neon2_out, rot90, vfma, vfms, rfma, rfms. cbn [fst snd]. destruct (r =? 0)%Z.
  - eapply (close_cclose ell 3); [| |reflexivity]; unfold vc; cbn [fst snd]; fclose_tac Hell.
  - eapply (close_cclose ell 3); [| |reflexivity]; unfold vc; cbn [fst snd]; fclose_tac Hell.
Qed.
Lemma neon3_err x0 x1 x2 wa wb oa ob : cin ell x0 -> cin ell x1 -> cin ell x2 -> ctab 1 (11 / 20) wa oa -> ctab 1 (11 / 20) wb ob ->
  cclose ell (203 / 10) (neon3_out Bopp Fma x0 x1 x2 (wa, wb)) (bf3_out Rplus Rminus Rmult (vc x0) (vc x1) (vc x2) (oa, ob)).
Proof.
  intros ((F0 & F0') & A0 & A0') ((F1 & F1') & A1 & A1') ((F2 & F2') & A2 & A2') (W & W') (V & V').
  rewrite <- (neon3_out_eq 0 Rplus Rminus Rmult Ropp rfma 1 RTheory ltac:(reflexivity)).
  unfold neon3_out, bf3_y, unzip, rot90, vfma, vtrn1, vtrn2, rfma. cbn [fst snd].
  eapply (close_cclose ell 5); [| |reflexivity]; unfold vc; cbn [fst snd]; fclose_tac Hell.
Qed.
Lemma neon5_err K R5 x0 x1 x2 x3 x4 r : cin ell x0 -> cin ell x1 -> cin ell x2 -> cin ell x3 -> cin ell x4 -> tab5 (11 / 20) K R5 ->
  cclose ell 33 (neon5_out Add Sub Bopp Fma Fms K x0 x1 x2 x3 x4 r) (fft5_out Rplus Rminus Rmult R5 (vc x0) (vc x1) (vc x2) (vc x3) (vc x4) r).
Proof.
  intros ((F0 & F0') & A0 & A0') ((F1 & F1') & A1 & A1') ((F2 & F2') & A2 & A2') ((F3 & F3') & A3 & A3') ((F4 & F4') & A4 & A4') (W1 & W2 & W3 & W4).
  rewrite <- (neon5_out_eq 0 Rplus Rminus Rmult Ropp rfma rfms 1 RTheory ltac:(reflexivity) ltac:(reflexivity)).
  unfold neon5_out, vadd, vsub, vfma, vfms, vrev64, rfma, rfms. cbn [fst snd].
  destruct (r =? 0)%Z; [|destruct (r =? 1)%Z; [|destruct (r =? 2)%Z; [|destruct (r =? 3)%Z]]];
  (eapply (close_cclose ell 9); [| |reflexivity]; unfold vc; cbn [fst snd]; fclose_tac Hell).
Qed.
End Kernels.

(** ** The FFT *)
Notation nk5 := (neon_fft_5 f0 Add Sub (@Bopp 24 128) Fma Fms).
Notation nk3 := (neon_fft_bf3 f0 (@Bopp 24 128) Fma).
Notation nk2 := (neon_fft_bf2 f0 (@Bopp 24 128) Fma Fms).
Lemma neon_fft_err T a b P : (0 <= a <= 2)%Z -> (1 <= b <= 5)%Z -> fft_size a b = P -> (P <= 1000)%Z -> shape_fft T a b -> near_fft T a b -> fft_bound (neon_fft f0 Add Sub (@Bopp 24 128) Fma Fms T) P.
Proof.
  intros Ha Hb EP0 Hsz Sh (N5 & N3 & N2) y0 y1 L0 L1 F0 X0. rewrite <- EP0 in *. clear EP0 P. set (P := fft_size a b) in *. set (x := fun j => vc (cat f0 y0 j)) in *.
  destruct (fft_with_same nk5 nk5 nk3 nk3 nk2 nk2 T a b y0 y1 Ha Hb Sh L0 L1 (fun n L c => (0 < L)%Z /\ ((n * L)%Z = P -> within P n L x (cost L) (cat f0 c)))) as (is1 & cur & other & E & _ & (_ & I) & La & Lb).
  - intros h Hh EP Hx Hy. destruct (neon_fft_5_ok f0 Add Sub Mul (@Bopp 24 128) Fma Fms (ft_5 T) y0 y1 h Hh Hx Hy) as (y' & E & (Ly & Vv & _)). exists y'. split; [exact E|]. split; [exact E|]. split; [exact Ly|]. split; [lia|]. intros _.
    set (n := (2 * h)%Z) in *. assert (P3 : (0 < 3 ^ a)%Z) by (apply Z.pow_pos_nonneg; lia). assert (P2 : (0 < 2 ^ b)%Z) by (apply Z.pow_pos_nonneg; lia). assert (P0 : (0 < P)%Z) by (unfold P, fft_size; nia). assert (Hn : (0 < n)%Z) by lia. clear P3 P2 P0.
    change ((n * (5 * 1))%Z = P) in EP. change (within P n (5 * 1) x (cost (5 * 1)) (cat f0 y')). clearbody P. subst P.
    apply (within_step 5 1 n x (cat f0 y0) (cat f0 y') 33 0); try lia; try lra.
    + change (5 * 1)%Z with 5%Z. rewrite cost_5. lra.
    + intros ell i r k He Hi Hr Hk Hin. replace k with 0%Z in * by lia. specialize (Vv i r 0%Z Hi Hr ltac:(lia)). unfold pos in Vv. rewrite Vv.
      replace (butterfly 5 1 n (fun j => vc (cat f0 y0 j)) i r 0) with (fft5_out Rplus Rminus Rmult exact5 (vc (cat f0 y0 i)) (vc (cat f0 y0 (i + n))) (vc (cat f0 y0 (i + 2 * n))) (vc (cat f0 y0 (i + 3 * n))) (vc (cat f0 y0 (i + 4 * n))) r).
      2:{ rewrite (fft5_term exact5) by (try apply exact5_ok; lia). unfold butterfly. apply csum_ext. intros q Hq. replace (5 * 1)%Z with 5%Z by reflexivity. replace (r * 1 + 0)%Z with r by ring. f_equal.
          assert (C : (q = 0 \/ q = 1 \/ q = 2 \/ q = 3 \/ q = 4)%Z) by lia. destruct C as [->|[->|[->|[->| ->]]]]; cbn [Z.eqb Pos.eqb]; do 2 f_equal; lia. }
      assert (Hq : forall q m, (0 <= q < 5)%Z -> m = (i + q * n)%Z -> cin ell (cat f0 y0 m)) by (intros q m Hq ->; specialize (Hin q Hq); rewrite Z.mul_1_r, Z.add_0_r in Hin; exact Hin).
      apply neon5_err; [exact He|apply (Hq 0%Z); lia|apply (Hq 1%Z); lia|apply (Hq 2%Z); lia|apply (Hq 3%Z); lia|apply (Hq 4%Z); lia|exact N5].
    + split; [exact F0|]. exists x. split; [apply stage_1|]. rewrite sqrt_1. split; [ring|]. apply Req_le. transitivity 0; [|ring].
      unfold nrm. rewrite <- sqrt_0. f_equal. rewrite (sum_ext _ _ (fun _ => 0)); [rewrite sum_const by nia; ring|]. intros j _. unfold sq, csub, x. cbn [fst snd]. ring.
  - intros j tw c y n L Hj Et EL Hn EP HL Sn Sl Hx Hy (_ & I). assert (Hn0 : (0 <= n)%Z) by lia.
    destruct (neon_fft_bf3_ok f0 (@Bopp 24 128) Fma tw c y n L Hn0 HL Sn Sl Hx Hy) as (c' & E & (Ly & Vv & _)). exists c'. split; [exact E|]. split; [exact E|]. split; [exact Ly|]. split; [lia|]. intros _.
    specialize (I ltac:(unfold P in *; lia)). specialize (N3 j tw Hj Et). rewrite <- EL in N3. destruct (cost_3 j ltac:(lia)) as (C3 & Cb). rewrite <- EL in C3, Cb.
    change ((n * (3 * L))%Z = P) in EP. rewrite <- EP in *. apply (within_step 3 L n x (cat f0 c) (cat f0 c') (203 / 10) (cost L)); try lia; try lra; [|exact I].
    intros ell i r k He Hi Hr Hk Hin. specialize (Vv i r k Hi Hr Hk). unfold pos in Vv. rewrite Vv. destruct (N3 (r * L + k)%Z ltac:(nia)) as (W1 & W2). rewrite (surjective_pairing (znth (t_t3 tw) (r * L + k) (d2 f0))).
    replace (butterfly 3 L n (fun j => vc (cat f0 c j)) i r k) with (bf3_out Rplus Rminus Rmult (vc (cat f0 c (i * L + k))) (vc (cat f0 c ((i + n) * L + k))) (vc (cat f0 c ((i + 2 * n) * L + k))) (root (3 * L) (r * L + k), root (3 * L) (2 * (r * L + k)))).
    2:{ rewrite bf3_term by lia. apply csum_ext. intros q Hq. f_equal. assert (C : (q = 0 \/ q = 1 \/ q = 2)%Z) by lia. destruct C as [->|[->| ->]]; cbn [Z.eqb Pos.eqb]; do 2 f_equal; lia. }
    assert (Hq : forall q m, (0 <= q < 3)%Z -> m = ((i + q * n) * L + k)%Z -> cin ell (cat f0 c m)) by (intros q m Hq ->; exact (Hin q Hq)).
    apply neon3_err; [exact He|apply (Hq 0%Z); lia|apply (Hq 1%Z); lia|apply (Hq 2%Z); lia|exact W1|exact W2].
  - intros j row tw c y n L Hj Err Et EL Hn EP HL Sn Sl Hx Hy (_ & I). assert (Hn0 : (0 <= n)%Z) by lia.
    destruct (neon_fft_bf2_ok f0 (@Bopp 24 128) Fma Fms tw c y n L Hn0 HL Sn Sl Hx Hy) as (c' & E & (Ly & Vv & _)). exists c'. split; [exact E|]. split; [exact E|]. split; [exact Ly|]. split; [lia|]. intros _.
    specialize (I ltac:(unfold P in *; lia)). specialize (N2 j row tw Hj Err Et). rewrite <- EL in N2. destruct (cost_2 a j ltac:(lia) ltac:(lia)) as (C2 & Cb). rewrite <- EL in C2, Cb.
    change ((n * (2 * L))%Z = P) in EP. rewrite <- EP in *. apply (within_step 2 L n x (cat f0 c) (cat f0 c') (82 / 10) (cost L)); try lia; try lra; [|exact I].
    intros ell i r k He Hi Hr Hk Hin. specialize (Vv i r k Hi Hr Hk). unfold pos in Vv. rewrite Vv. pose proof (N2 k ltac:(lia)) as W1.
    replace (butterfly 2 L n (fun j => vc (cat f0 c j)) i r k) with (bf2_out Rplus Rminus Rmult (vc (cat f0 c (i * L + k))) (vc (cat f0 c ((i + n) * L + k))) (root (2 * L) k) r).
    2:{ rewrite bf2_term by lia. apply csum_ext. intros q Hq. f_equal. assert (C : (q = 0 \/ q = 1)%Z) by lia. destruct C as [-> | ->]; cbn [Z.eqb Pos.eqb]; do 2 f_equal; lia. }
    assert (Hq : forall q m, (0 <= q < 2)%Z -> m = ((i + q * n) * L + k)%Z -> cin ell (cat f0 c m)) by (intros q m Hq ->; exact (Hin q Hq)).
    apply neon2_err; [exact He|apply (Hq 0%Z); lia|apply (Hq 1%Z); lia|exact W1].
  - exists is1, cur, other. split; [exact E|]. split; [apply I; lia|]. auto.
Qed.
