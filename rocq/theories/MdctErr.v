(** * Rounding errors of the kernels of the FFT *)
From Coq Require Import Reals ZArith List Bool Lia Lra ZifyBool.
From Flocq Require Import Core.Core IEEE754.BinarySingleNaN.
From Verif Require Import Base BaseProofs FloatLaws F32Model F32Proofs SpecEncFloat MdctModel MdctProofs MdctFft MdctSpec MdctMath MdctExact MdctStream ErrNorm ErrF32.
Local Open Scope R_scope.

Definition vc (x : f32 * f32) : cplx := (val (fst x), val (snd x)).
Definition cfin (x : f32 * f32) : Prop := fin (fst x) /\ fin (snd x).
(** Finite, and within the scale. *)
Definition cin (ell : R) (x : f32 * f32) : Prop := cfin x /\ Rabs (val (fst x)) <= ell /\ Rabs (val (snd x)) <= ell.
(** The two parts within [k] roundings of the scale. *)
Definition cclose (ell k : R) (x : f32 * f32) (r : cplx) : Prop :=
  cfin x /\ Rabs (val (fst x) - fst r) <= k * (ru * ell) /\ Rabs (val (snd x) - snd r) <= k * (ru * ell).
Definition ctab (cw dw : R) (w : f32 * f32) (om : cplx) : Prop := tab_close cw dw (fst w) (fst om) /\ tab_close cw dw (snd w) (snd om).
Definition tab5 (dw : R) (K : @fft5_consts f32) (R5 : @fft5_consts R) : Prop :=
  tab_close (31 / 100) dw (k_cos1 K) (k_cos1 R5) /\ tab_close (81 / 100) dw (k_cos2 K) (k_cos2 R5) /\ tab_close (96 / 100) dw (k_sin1 K) (k_sin1 R5) /\ tab_close (59 / 100) dw (k_sin2 K) (k_sin2 R5).

Lemma close_cclose ell c k x r s : close ell c k (fst x) (fst r) -> close ell c k (snd x) (snd r) -> s = r -> cclose ell k x s.
Proof. intros (F1 & _ & A) (F2 & _ & B) ->. split; [split; assumption|]. auto. Qed.

Ltac cl Hell := lazymatch goal with
  | |- close _ _ _ (Add _ _) _ => eapply (close_add _ Hell); [| | | |cl Hell|cl Hell]
  | |- close _ _ _ (Sub _ _) _ => eapply (close_sub _ Hell); [| | | |cl Hell|cl Hell]
  | |- close _ _ _ (Mul _ _) _ => eapply (close_mul _ Hell); [| | | |cl Hell|eassumption]
  | |- close _ _ _ (Bopp _) _ => eapply close_opp; cl Hell
  | |- close _ _ _ _ _ => eapply close_in; eassumption
  end.
Ltac cclose_tac Hell := eapply close_weaken; [exact Hell| | |cl Hell]; lra.

Section Kernels.
Variable ell : R.
Hypothesis Hell : scale_ok ell.

Lemma bf2_err x0 x1 w om r : cin ell x0 -> cin ell x1 -> ctab 1 (11 / 20) w om ->
  cclose ell (82 / 10) (bf2_out Add Sub Mul x0 x1 w r) (bf2_out Rplus Rminus Rmult (vc x0) (vc x1) om r).
Proof.
  intros ((F0 & F0') & A0 & A0') ((F1 & F1') & A1 & A1') (W & W'). unfold bf2_out. destruct (r =? 0)%Z.
  - eapply (close_cclose ell 3); [| |reflexivity]; unfold vc; cbn [fst snd]; cclose_tac Hell.
  - eapply (close_cclose ell 3); [| |reflexivity]; unfold vc; cbn [fst snd]; cclose_tac Hell.
Qed.
Lemma bf3_err x0 x1 x2 wa wb oa ob : cin ell x0 -> cin ell x1 -> cin ell x2 -> ctab 1 (11 / 20) wa oa -> ctab 1 (11 / 20) wb ob ->
  cclose ell (203 / 10) (bf3_out Add Sub Mul x0 x1 x2 (wa, wb)) (bf3_out Rplus Rminus Rmult (vc x0) (vc x1) (vc x2) (oa, ob)).
Proof.
  intros ((F0 & F0') & A0 & A0') ((F1 & F1') & A1 & A1') ((F2 & F2') & A2 & A2') (W & W') (V & V'). unfold bf3_out.
  eapply (close_cclose ell 5); [| |reflexivity]; unfold vc; cbn [fst snd]; cclose_tac Hell.
Qed.
Lemma fft5_err K R5 x0 x1 x2 x3 x4 r : cin ell x0 -> cin ell x1 -> cin ell x2 -> cin ell x3 -> cin ell x4 -> tab5 (11 / 20) K R5 ->
  cclose ell 33 (fft5_out Add Sub Mul K x0 x1 x2 x3 x4 r) (fft5_out Rplus Rminus Rmult R5 (vc x0) (vc x1) (vc x2) (vc x3) (vc x4) r).
Proof.
  intros ((F0 & F0') & A0 & A0') ((F1 & F1') & A1 & A1') ((F2 & F2') & A2 & A2') ((F3 & F3') & A3 & A3') ((F4 & F4') & A4 & A4') (W1 & W2 & W3 & W4). unfold fft5_out. cbv zeta.
  destruct (r =? 0)%Z; [|destruct (r =? 1)%Z; [|destruct (r =? 2)%Z; [|destruct (r =? 3)%Z]]];
  (eapply (close_cclose ell 9); [| |reflexivity]; unfold vc; cbn [fst snd]; cclose_tac Hell).
Qed.
End Kernels.

(** ** Stages *)
Definition bmap (p L n : Z) (V : Z -> cplx) (j : Z) : cplx := butterfly p L n V (j / (p * L)) (j mod (p * L) / L) (j mod (p * L) mod L).
Lemma out_split p L n j : (0 < p)%Z -> (0 < L)%Z -> (0 <= j < n * (p * L))%Z ->
  exists i r k, (0 <= i < n)%Z /\ (0 <= r < p)%Z /\ (0 <= k < L)%Z /\ j = (i * (p * L) + r * L + k)%Z.
Proof.
  intros Hp HL Hj. assert (M : (0 < p * L)%Z) by (apply Z.mul_pos_pos; assumption).
  assert (D : forall n L q, (0 < L)%Z -> (0 <= q < n * L)%Z -> (0 <= q / L < n)%Z /\ (0 <= q mod L < L)%Z /\ (q = q / L * L + q mod L)%Z).
  { clear. intros n L q HL Hq. pose proof (Z.mod_pos_bound q L HL). assert (q / L < n)%Z by (apply Z.div_lt_upper_bound; lia). pose proof (Z.div_pos q L). pose proof (Z.div_mod q L). lia. }
  destruct (D n (p * L)%Z j M Hj) as (A & B & C). destruct (D p L _ HL B) as (A' & B' & C'). exists (j / (p * L))%Z, (j mod (p * L) / L)%Z, (j mod (p * L) mod L)%Z. repeat (split; [lia|]). lia.
Qed.
Lemma bmap_at p L n V i r k : (0 < p)%Z -> (0 < L)%Z -> (0 <= r < p)%Z -> (0 <= k < L)%Z -> bmap p L n V (i * (p * L) + r * L + k)%Z = butterfly p L n V i r k.
Proof.
  intros Hp HL Hr Hk. unfold bmap. assert (B : (0 <= r * L + k < p * L)%Z) by nia.
  assert (E1 : ((i * (p * L) + r * L + k) / (p * L) = i)%Z) by (symmetry; apply (Z.div_unique _ _ _ (r * L + k)); lia).
  assert (E2 : ((i * (p * L) + r * L + k) mod (p * L) = r * L + k)%Z) by (symmetry; apply (Z.mod_unique _ _ i); lia).
  rewrite E1, E2. f_equal; [symmetry; apply (Z.div_unique _ _ _ k)|symmetry; apply (Z.mod_unique _ _ r)]; lia.
Qed.
Lemma butterfly_sub p L n V W i r k : butterfly p L n (fun j => csub (V j) (W j)) i r k = csub (butterfly p L n V i r k) (butterfly p L n W i r k).
Proof.
  unfold butterfly, csum, csub. cbn [fst snd]. f_equal.
  - rewrite <- sum_sub. apply sum_ext. intros q _. unfold term. cbn [fst snd]. ring.
  - rewrite <- sum_sub. apply sum_ext. intros q _. unfold term. cbn [fst snd]. ring.
Qed.
Lemma bmap_norm p L n V : (0 < p)%Z -> (0 < L)%Z -> (0 <= n)%Z -> nrm (n * (p * L)) (bmap p L n V) = sqrt (IZR p) * nrm (n * (p * L)) V.
Proof. intros Hp HL Hn. apply butterfly_energy; try assumption. intros. apply bmap_at; lia. Qed.

Lemma sqrt2_b : 1 <= sqrt 2 <= 14143 / 10000.
Proof.
  split; [rewrite <- sqrt_1 at 1; apply sqrt_le_1_alt; lra|]. apply sqrt_le_sq; lra.
Qed.

Section StageErr.
Variables (p L n : Z) (c c' : Z -> f32 * f32) (kap : R).
Let M := (n * (p * L))%Z.
Hypothesis Hp : (0 < p)%Z.
Hypothesis HL : (0 < L)%Z.
Hypothesis Hn : (0 < n)%Z.
Hypothesis Hk : 0 <= kap.
Hypothesis Fc : forall j, (0 <= j < M)%Z -> cfin (c j).
Hypothesis Bc : nrm M (fun j => vc (c j)) <= p2 79.
Hypothesis Hb : forall ell i r k, scale_ok ell -> (0 <= i < n)%Z -> (0 <= r < p)%Z -> (0 <= k < L)%Z ->
  (forall q, (0 <= q < p)%Z -> cin ell (c ((i + q * n) * L + k)%Z)) ->
  cclose ell kap (c' (i * (p * L) + r * L + k)%Z) (butterfly p L n (fun j => vc (c j)) i r k).
Let V := fun j => vc (c j).
Let g i k := sqrt (sum p (fun q => sq (V ((i + q * n) * L + k)%Z))).
Let h := p2 (-100).
Let ell i k := g i k + h.

Let hpos : 0 < h. Proof. apply bpow_gt_0. Qed.
Let gpos i k : 0 <= g i k. Proof. apply sqrt_pos. Qed.
Let in_bound i q k : (0 <= i < n)%Z -> (0 <= q < p)%Z -> (0 <= k < L)%Z -> (0 <= (i + q * n) * L + k < M)%Z.
Proof.
  intros Hi Hq Hk'. unfold M. assert (0 <= i + q * n < p * n)%Z by nia. assert ((i + q * n) * L + k < p * n * L)%Z by nia. split; [nia|lia].
Qed.
Let g_le i k : (0 <= i < n)%Z -> (0 <= k < L)%Z -> g i k <= nrm M V.
Proof.
  intros Hi Hk'. unfold g, nrm. apply sqrt_le_1_alt. unfold M. rewrite sum_inputs by lia.
  eapply Rle_trans; [|apply (sum_ge1 n (fun i => sum L (fun k => sum p (fun q => sq (V ((i + q * n) * L + k)%Z)))) i); [|exact Hi]].
  - apply (sum_ge1 L (fun k => sum p (fun q => sq (V ((i + q * n) * L + k)%Z))) k); [|exact Hk']. intros. apply sum_pos. intros. apply sq_pos.
  - intros. apply sum_pos. intros. apply sum_pos. intros. apply sq_pos.
Qed.
Let ell_ok i k : (0 <= i < n)%Z -> (0 <= k < L)%Z -> scale_ok (ell i k).
Proof.
  intros Hi Hk'. pose proof (g_le i k Hi Hk'). pose proof (gpos i k). unfold scale_ok, ell. fold h. split; [lra|].
  replace (p2 80) with (p2 79 + p2 79) by (change 80%Z with (79 + 1)%Z; rewrite (bpow_plus radix2 79 1); change (p2 1) with 2; ring).
  assert (h <= p2 79) by (apply bpow_le; lia). fold V in Bc. lra.
Qed.
Let ell_in i k q : (0 <= i < n)%Z -> (0 <= k < L)%Z -> (0 <= q < p)%Z -> cin (ell i k) (c ((i + q * n) * L + k)%Z).
Proof.
  intros Hi Hk' Hq. split; [apply Fc, in_bound; assumption|].
  assert (G : md (V ((i + q * n) * L + k)%Z) <= g i k) by (apply (nrm_ge p (fun q => V ((i + q * n) * L + k)%Z) q Hq)).
  pose proof (md_comp (V ((i + q * n) * L + k)%Z)) as (A & B). unfold V, vc in A, B, G. cbn [fst snd] in A, B. unfold ell. lra.
Qed.

Lemma stage_fin j : (0 <= j < M)%Z -> cfin (c' j).
Proof.
  intros Hj. destruct (out_split p L n j Hp HL Hj) as (i & r & k & Hi & Hr & Hk' & ->).
  apply (Hb (ell i k) i r k (ell_ok i k Hi Hk') Hi Hr Hk'). intros q Hq. apply ell_in; assumption.
Qed.
Lemma stage_err : nrm M (fun j => csub (vc (c' j)) (bmap p L n V j)) <= kap * ru * sqrt 2 * sqrt (IZR p) * (nrm M V + sqrt (IZR (n * L)) * h).
Proof.
  pose proof ru_b as U. pose proof (sqrt_pos 2) as Q2. set (e := kap * ru * sqrt 2). assert (E0 : 0 <= e) by (unfold e; repeat apply Rmult_le_pos; lra).
  set (G := nrm (n * L) (fun j => (ell (j / L)%Z (j mod L)%Z, 0))).
  assert (D : forall i k, (0 <= k < L)%Z -> ((i * L + k) / L = i)%Z /\ ((i * L + k) mod L = k)%Z).
  { intros i k Hk'. split; [symmetry; apply (Z.div_unique _ _ _ k)|symmetry; apply (Z.mod_unique _ _ i)]; lia. }
  assert (A : nrm M (fun j => csub (vc (c' j)) (bmap p L n V j)) <= e * sqrt (IZR p) * G).
  { unfold nrm at 1. apply sqrt_le_sq; [apply Rmult_le_pos; [apply Rmult_le_pos; [exact E0|apply sqrt_pos]|apply nrm_pos]|].
    replace (e * sqrt (IZR p) * G * (e * sqrt (IZR p) * G)) with (IZR p * (e * e) * (G * G)).
    2:{ transitivity (sqrt (IZR p) * sqrt (IZR p) * (e * e) * (G * G)); [rewrite sqrt_sqrt by (apply IZR_le; lia); reflexivity|ring]. }
    unfold G. rewrite nrm_sq. unfold M. rewrite sum_outputs by lia. rewrite sum_blocks by lia. rewrite <- sum_scal. apply sum_le. intros i Hi. rewrite <- sum_scal. apply sum_le. intros k Hk'.
    destruct (D i k Hk') as (-> & ->). eapply Rle_trans; [apply (sum_le p _ (fun _ => (e * ell i k) * (e * ell i k)))|rewrite sum_const by lia; unfold sq; cbn [fst snd]; apply Req_le; ring].
    intros r Hr. rewrite <- md_sq. rewrite bmap_at by assumption. pose proof (Hb (ell i k) i r k (ell_ok i k Hi Hk') Hi Hr Hk' (fun q Hq => ell_in i k q Hi Hk' Hq)) as (_ & B1 & B2).
    assert (X : md (csub (vc (c' (i * (p * L) + r * L + k)%Z)) (butterfly p L n V i r k)) <= e * ell i k).
    { eapply Rle_trans; [apply md_le_comp; [exact B1|exact B2]|]. unfold e. apply Req_le. ring. }
    apply Rmult_le_compat; try apply md_pos; exact X. }
  assert (B : G <= nrm M V + sqrt (IZR (n * L)) * h).
  { unfold G. eapply Rle_trans; [apply Req_le, (nrm_ext _ _ (fun j => cadd (g (j / L)%Z (j mod L)%Z, 0) (h, 0)))|].
    - intros j _. unfold cadd. cbn [fst snd]. unfold ell. f_equal. ring.
    - eapply Rle_trans; [apply nrm_triangle|]. apply Rplus_le_compat.
      + apply Req_le. unfold nrm. f_equal. unfold M. rewrite sum_inputs, sum_blocks by lia. apply sum_ext. intros i Hi. apply sum_ext. intros k Hk'. destruct (D i k Hk') as (-> & ->).
        unfold sq at 1. cbn [fst snd]. unfold g. rewrite sqrt_sqrt by (apply sum_pos; intros; apply sq_pos). ring.
      + apply nrm_const; [nia|lra|]. intros i Hi. unfold md, sq. cbn [fst snd]. apply sqrt_le_sq; [lra|]. apply Req_le. ring. }
  eapply Rle_trans; [exact A|]. apply Rmult_le_compat_l; [apply Rmult_le_pos; [exact E0|apply sqrt_pos]|exact B].
Qed.
End StageErr.

(** ** The FFT *)
Definition exact5 : @fft5_consts R := {| k_cos1 := cos (2 * PI / 5); k_cos2 := cos (2 * PI * 2 / 5); k_sin1 := - sin (2 * PI / 5); k_sin2 := - sin (2 * PI * 2 / 5) |}.
Lemma exact5_ok : exact_5 exact5.
Proof. unfold exact_5, exact5. cbn. auto. Qed.
Notation f0 := (f32_dy 0 0).
(** The tables of a size, within 0.55 unit of the roots of the unity. *)
Definition near_fft (T : @fft_tables f32) (a b : Z) : Prop :=
  tab5 (11 / 20) (ft_5 T) exact5 /\
  (forall j tw, (0 <= j < a)%Z -> rdt (ft_bf3 T) j = Some tw -> forall k, (0 <= k < 3 * (5 * 3 ^ j))%Z ->
    ctab 1 (11 / 20) (fst (znth (t_t3 tw) k (d2 f0))) (root (3 * (5 * 3 ^ j)) k) /\ ctab 1 (11 / 20) (snd (znth (t_t3 tw) k (d2 f0))) (root (3 * (5 * 3 ^ j)) (2 * k))) /\
  (forall j row tw, (0 <= j < b)%Z -> rdt (ft_bf2 T) j = Some row -> rdt row a = Some tw -> forall k, (0 <= k < 5 * 3 ^ a * 2 ^ j)%Z ->
    ctab 1 (11 / 20) (znth (t_t2 tw) k (d1 f0)) (root (2 * (5 * 3 ^ a * 2 ^ j)) k)).

Definition tiny : R := p2 (-90).
(** After the stages of product [L]: exact values, and an error of [cost] roundings of their norm. *)
Definition within (P n L : Z) (x : Z -> cplx) (cost : R) (c : Z -> f32 * f32) : Prop :=
  (forall j, (0 <= j < P)%Z -> cfin (c j)) /\
  exists ex, stage n L x ex /\ nrm P ex = sqrt (IZR L) * nrm P x /\
    nrm P (fun j => csub (vc (c j)) (ex j)) <= sqrt (IZR L) * (cost * ru * (nrm P x + tiny)).

Lemma within_step p L n x c c' kap cost cost' : (0 < p)%Z -> (0 < L)%Z -> (0 < n)%Z -> (n * (p * L) <= 1000)%Z -> 0 <= kap -> 0 <= cost <= 400 -> cost + 1415 / 1000 * kap <= cost' ->
  nrm (n * (p * L)) x <= p2 70 ->
  (forall ell i r k, scale_ok ell -> (0 <= i < n)%Z -> (0 <= r < p)%Z -> (0 <= k < L)%Z ->
    (forall q, (0 <= q < p)%Z -> cin ell (c ((i + q * n) * L + k)%Z)) ->
    cclose ell kap (c' (i * (p * L) + r * L + k)%Z) (butterfly p L n (fun j => vc (c j)) i r k)) ->
  within (n * (p * L)) (p * n) L x cost c -> within (n * (p * L)) n (p * L) x cost' c'.
Proof.
  intros Hp HL Hn HP Hk Hc Hc' Hx Hb (Fc & ex & Hs & En & Er). set (P := (n * (p * L))%Z) in *.
  assert (Pp : (0 < p * L)%Z) by (apply Z.mul_pos_pos; assumption). assert (Pn : (n * L <= P)%Z) by (unfold P; nia). assert (PL : (L <= P)%Z) by (unfold P; nia).
  assert (HrL : 1 <= sqrt (IZR L) <= 32) by (split; [rewrite <- sqrt_1 at 1; apply sqrt_le_1_alt, IZR_le; lia|apply sqrt_le_sq; [lra|]; rewrite <- mult_IZR; apply IZR_le; lia]).
  assert (Hrn : sqrt (IZR n) <= 32) by (apply sqrt_le_sq; [lra|]; rewrite <- mult_IZR; apply IZR_le; nia).
  pose proof ru_b as U. pose proof (nrm_pos P x) as N0. assert (Hh : 0 < p2 (-100)) by apply bpow_gt_0.
  assert (Ht : 1024 * p2 (-100) = tiny) by (unfold tiny; change (-90)%Z with (10 + -100)%Z; rewrite (bpow_plus radix2 10 (-100)); f_equal; cbn; lra).
  set (X := nrm P x + tiny) in *. assert (X0 : 0 < X) by (unfold X; lra).
  assert (CU : 0 <= cost * ru <= / 40000) by (split; [apply Rmult_le_pos; lra|apply Rle_trans with (400 * / 16000000); [apply Rmult_le_compat; lra|lra]]).
  set (V := fun j => vc (c j)) in *.
  assert (NV : nrm P V <= sqrt (IZR L) * (nrm P x + / 40000 * X)).
  { eapply Rle_trans; [apply (nrm_le_sub P V ex)|]. rewrite En. unfold V at 1. rewrite Rmult_plus_distr_l. apply Rplus_le_compat_l. eapply Rle_trans; [exact Er|]. apply Rmult_le_compat_l; [lra|]. apply Rmult_le_compat_r; lra. }
  assert (T70 : p2 70 <= p2 70 /\ tiny <= p2 70) by (split; [lra|apply bpow_le; lia]).
  assert (BV : nrm P V <= p2 79).
  { eapply Rle_trans; [exact NV|]. apply Rle_trans with (32 * (3 * p2 70)); [apply Rmult_le_compat; [lra|unfold X in *; lra|lra|unfold X; lra]|].
    change 79%Z with (9 + 70)%Z. rewrite (bpow_plus radix2 9 70). assert (0 < p2 70) by apply bpow_gt_0. replace (32 * (3 * p2 70)) with (96 * p2 70) by ring. apply Rmult_le_compat_r; [lra|]. cbn. lra. }
  split; [intros j Hj; exact (stage_fin p L n c c' kap Hp HL Hn Fc BV Hb j Hj)|].
  pose proof (stage_err p L n c c' kap Hp HL Hn Hk Fc BV Hb) as SE. fold P V in SE.
  exists (bmap p L n ex). split; [|split].
  - apply (stage_step p L n x ex); [exact Hp|exact HL|exact Hs|]. intros i r j Hi Hr Hj. rewrite bmap_at by assumption. reflexivity.
  - unfold P. rewrite bmap_norm by lia. fold P. rewrite En, mult_IZR, sqrt_mult_alt by (apply IZR_le; lia). ring.
  - eapply Rle_trans; [apply (nrm_sub P _ (bmap p L n V))|].
    assert (A : nrm P (fun j => csub (bmap p L n V j) (bmap p L n ex j)) <= sqrt (IZR p) * (sqrt (IZR L) * (cost * ru * X))).
    { rewrite (nrm_ext P _ (bmap p L n (fun j => csub (V j) (ex j)))).
      - unfold P. rewrite bmap_norm by lia. fold P. apply Rmult_le_compat_l; [apply sqrt_pos|exact Er].
      - intros j _. unfold bmap. symmetry. apply butterfly_sub. }
    assert (B : nrm P V + sqrt (IZR (n * L)) * p2 (-100) <= sqrt (IZR L) * ((1 + / 40000) * X)).
    { rewrite mult_IZR, sqrt_mult_alt by (apply IZR_le; lia).
      assert (sqrt (IZR n) * sqrt (IZR L) * p2 (-100) <= sqrt (IZR L) * tiny).
      { rewrite <- Ht. replace (sqrt (IZR n) * sqrt (IZR L) * p2 (-100)) with (sqrt (IZR L) * (sqrt (IZR n) * p2 (-100))) by ring. apply Rmult_le_compat_l; [lra|]. apply Rmult_le_compat_r; lra. }
      replace (sqrt (IZR L) * ((1 + / 40000) * X)) with (sqrt (IZR L) * (nrm P x + / 40000 * X) + sqrt (IZR L) * tiny) by (unfold X; ring). lra. }
    pose proof sqrt2_b as S2. pose proof (sqrt_pos (IZR p)) as Sp.
    assert (C : kap * ru * sqrt 2 * sqrt (IZR p) * (nrm P V + sqrt (IZR (n * L)) * p2 (-100)) <= sqrt (IZR p) * (sqrt (IZR L) * (1415 / 1000 * kap * ru * X))).
    { apply Rle_trans with (kap * ru * sqrt 2 * sqrt (IZR p) * (sqrt (IZR L) * ((1 + / 40000) * X))); [apply Rmult_le_compat_l; [repeat apply Rmult_le_pos; lra|exact B]|].
      replace (kap * ru * sqrt 2 * sqrt (IZR p) * (sqrt (IZR L) * ((1 + / 40000) * X))) with (sqrt (IZR p) * (sqrt (IZR L) * (sqrt 2 * (1 + / 40000) * (kap * ru * X)))) by ring.
      apply Rmult_le_compat_l; [lra|]. apply Rmult_le_compat_l; [lra|]. replace (1415 / 1000 * kap * ru * X) with (1415 / 1000 * (kap * ru * X)) by ring. apply Rmult_le_compat_r; [repeat apply Rmult_le_pos; lra|lra]. }
    rewrite mult_IZR, sqrt_mult_alt by (apply IZR_le; lia). eapply Rle_trans; [apply Rplus_le_compat; [exact SE|exact A]|]. eapply Rle_trans; [apply Rplus_le_compat_r, C|].
    rewrite <- Rmult_plus_distr_l, <- Rmult_plus_distr_l. rewrite (Rmult_assoc (sqrt (IZR p))). apply Rmult_le_compat_l; [lra|]. apply Rmult_le_compat_l; [lra|].
    replace (1415 / 1000 * kap * ru * X + cost * ru * X) with ((cost + 1415 / 1000 * kap) * (ru * X)) by ring. rewrite (Rmult_assoc cost'). apply Rmult_le_compat_r; [apply Rmult_le_pos; lra|exact Hc'].
Qed.

Definition cost (L : Z) : R := 467 / 10 + 288 / 10 * IZR (exp3 L) + 1161 / 100 * IZR (exp2 L).
Lemma cost_5 : cost 5 = 467 / 10.
Proof. unfold cost. change (exp3 5) with 0%Z. change (exp2 5) with 0%Z. lra. Qed.
Lemma cost_3 j : (0 <= j < 2)%Z -> cost (3 * (5 * 3 ^ j)) = cost (5 * 3 ^ j) + 288 / 10 /\ 0 <= cost (5 * 3 ^ j) <= 200.
Proof.
  intros H. assert (C : (j = 0 \/ j = 1)%Z) by lia. unfold cost.
  destruct C as [-> | ->]; match goal with |- context [cost] => idtac | _ => idtac end;
  repeat match goal with |- context [exp3 ?x] => let v := eval vm_compute in (exp3 x) in change (exp3 x) with v end;
  repeat match goal with |- context [exp2 ?x] => let v := eval vm_compute in (exp2 x) in change (exp2 x) with v end; lra.
Qed.
Lemma cost_2 a j : (0 <= a <= 2)%Z -> (0 <= j < 5)%Z -> cost (2 * (5 * 3 ^ a * 2 ^ j)) = cost (5 * 3 ^ a * 2 ^ j) + 1161 / 100 /\ 0 <= cost (5 * 3 ^ a * 2 ^ j) <= 200.
Proof.
  intros Ha H. assert (C : (j = 0 \/ j = 1 \/ j = 2 \/ j = 3 \/ j = 4)%Z) by lia. assert (Ca : (a = 0 \/ a = 1 \/ a = 2)%Z) by lia. unfold cost.
  destruct Ca as [->|[->| ->]]; destruct C as [->|[->|[->|[->| ->]]]];
  repeat match goal with |- context [exp3 ?x] => let v := eval vm_compute in (exp3 x) in change (exp3 x) with v end;
  repeat match goal with |- context [exp2 ?x] => let v := eval vm_compute in (exp2 x) in change (exp2 x) with v end; lra.
Qed.
Lemma sum_1 f : sum 1 f = f 0%Z.
Proof. cbv [sum sum_to Z.to_nat Pos.to_nat Pos.iter_op Nat.add]. cbn. ring. Qed.
Lemma stage_1 n x : stage n 1 x x.
Proof.
  intros i k Hi Hk. replace k with 0%Z by lia. rewrite Z.mul_1_r, Z.add_0_r. unfold csum. rewrite !sum_1. rewrite Z.mul_0_r, Z.add_0_r. rewrite term_0. destruct (x i); reflexivity.
Qed.

Lemma fft_err T a b y0 y1 : (0 <= a <= 2)%Z -> (0 <= b <= 5)%Z -> (fft_size a b <= 1000)%Z -> shape_fft T a b -> near_fft T a b ->
  (2 * fft_size a b <= zlen y0)%Z -> (2 * fft_size a b <= zlen y1)%Z ->
  (forall j, (0 <= j < fft_size a b)%Z -> cfin (cat f0 y0 j)) -> nrm (fft_size a b) (fun j => vc (cat f0 y0 j)) <= p2 70 ->
  exists is1 cur other, fft f0 Add Sub Mul T (fft_size a b) y0 y1 = Some (is1, (cur, other)) /\
    within (fft_size a b) 1 (fft_size a b) (fun j => vc (cat f0 y0 j)) (cost (fft_size a b)) (cat f0 cur) /\
    zlen (if is1 : bool then cur else other) = zlen y1 /\ zlen (if is1 then other else cur) = zlen y0.
Proof.
  intros Ha Hb Hsz Sh (N5 & N3 & N2) L0 L1 F0 X0. set (P := fft_size a b) in *. set (x := fun j => vc (cat f0 y0 j)) in *.
  destruct (fft_stages f0 Add Sub Mul T a b (fun n L c => (0 < L)%Z /\ ((n * L)%Z = P -> within P n L x (cost L) (cat f0 c))) y0 y1 Ha Hb Sh L0 L1) as (is1 & cur & other & E & (_ & I) & La & Lb).
  - intros y' n En Vv. split; [lia|]. intros EP. assert (P3 : (0 < 3 ^ a)%Z) by (apply Z.pow_pos_nonneg; lia). assert (P2 : (0 < 2 ^ b)%Z) by (apply Z.pow_pos_nonneg; lia). assert (Hn : (0 < n)%Z) by (rewrite En; nia). clear P3 P2.
    change ((n * (5 * 1))%Z = P) in EP. change (within P n (5 * 1) x (cost (5 * 1)) (cat f0 y')). rewrite <- EP in *.
    apply (within_step 5 1 n x (cat f0 y0) (cat f0 y') 33 0); try lia; try lra.
    + change (5 * 1)%Z with 5%Z. rewrite cost_5. lra.
    + intros ell i r k He Hi Hr Hk Hin. replace k with 0%Z in * by lia. replace (i * (5 * 1) + r * 1 + 0)%Z with (5 * i + r)%Z by ring. rewrite Vv by lia.
      replace (butterfly 5 1 n (fun j => vc (cat f0 y0 j)) i r 0) with (fft5_out Rplus Rminus Rmult exact5 (vc (cat f0 y0 i)) (vc (cat f0 y0 (i + n))) (vc (cat f0 y0 (i + 2 * n))) (vc (cat f0 y0 (i + 3 * n))) (vc (cat f0 y0 (i + 4 * n))) r).
      2:{ rewrite (fft5_term exact5) by (try apply exact5_ok; lia). unfold butterfly. apply csum_ext. intros q Hq. replace (5 * 1)%Z with 5%Z by reflexivity. replace (r * 1 + 0)%Z with r by ring. f_equal.
          assert (C : (q = 0 \/ q = 1 \/ q = 2 \/ q = 3 \/ q = 4)%Z) by lia. destruct C as [->|[->|[->|[->| ->]]]]; cbn [Z.eqb Pos.eqb]; do 2 f_equal; lia. }
      assert (Hq : forall q m, (0 <= q < 5)%Z -> m = (i + q * n)%Z -> cin ell (cat f0 y0 m)) by (intros q m Hq ->; specialize (Hin q Hq); rewrite Z.mul_1_r, Z.add_0_r in Hin; exact Hin).
      apply fft5_err; [exact He|apply (Hq 0%Z); lia|apply (Hq 1%Z); lia|apply (Hq 2%Z); lia|apply (Hq 3%Z); lia|apply (Hq 4%Z); lia|exact N5].
    + split; [exact F0|]. exists x. split; [apply stage_1|]. rewrite sqrt_1. split; [ring|]. apply Req_le. transitivity 0; [|ring].
      unfold nrm. rewrite <- sqrt_0. f_equal. rewrite (sum_ext _ _ (fun _ => 0)); [rewrite sum_const by nia; ring|]. intros j _. unfold sq, csub, x. cbn [fst snd]. ring.
  - intros j tw n L c c' Hj Et EL Hn EP (HL & I) Vv. split; [lia|]. intros _. specialize (I ltac:(unfold P; lia)). specialize (N3 j tw Hj Et). rewrite <- EL in N3. destruct (cost_3 j ltac:(lia)) as (C3 & Cb). rewrite <- EL in C3, Cb.
    change ((n * (3 * L))%Z = P) in EP. rewrite <- EP in *. apply (within_step 3 L n x (cat f0 c) (cat f0 c') (203 / 10) (cost L)); try lia; try lra; [|exact I].
    intros ell i r k He Hi Hr Hk Hin. rewrite Vv by lia. destruct (N3 (r * L + k)%Z ltac:(nia)) as (W1 & W2). rewrite (surjective_pairing (znth (t_t3 tw) (r * L + k) (d2 f0))).
    replace (butterfly 3 L n (fun j => vc (cat f0 c j)) i r k) with (bf3_out Rplus Rminus Rmult (vc (cat f0 c (i * L + k))) (vc (cat f0 c ((i + n) * L + k))) (vc (cat f0 c ((i + 2 * n) * L + k))) (root (3 * L) (r * L + k), root (3 * L) (2 * (r * L + k)))).
    2:{ rewrite bf3_term by lia. apply csum_ext. intros q Hq. f_equal. assert (C : (q = 0 \/ q = 1 \/ q = 2)%Z) by lia. destruct C as [->|[->| ->]]; cbn [Z.eqb Pos.eqb]; do 2 f_equal; lia. }
    assert (Hq : forall q m, (0 <= q < 3)%Z -> m = ((i + q * n) * L + k)%Z -> cin ell (cat f0 c m)) by (intros q m Hq ->; exact (Hin q Hq)).
    apply bf3_err; [exact He|apply (Hq 0%Z); lia|apply (Hq 1%Z); lia|apply (Hq 2%Z); lia|exact W1|exact W2].
  - intros j row tw n L c c' Hj Err Et EL Hn EP (HL & I) Vv. split; [lia|]. intros _. specialize (I ltac:(unfold P; lia)). specialize (N2 j row tw Hj Err Et). rewrite <- EL in N2. destruct (cost_2 a j ltac:(lia) ltac:(lia)) as (C2 & Cb). rewrite <- EL in C2, Cb.
    change ((n * (2 * L))%Z = P) in EP. rewrite <- EP in *. apply (within_step 2 L n x (cat f0 c) (cat f0 c') (82 / 10) (cost L)); try lia; try lra; [|exact I].
    intros ell i r k He Hi Hr Hk Hin. rewrite Vv by lia. pose proof (N2 k ltac:(lia)) as W1.
    replace (butterfly 2 L n (fun j => vc (cat f0 c j)) i r k) with (bf2_out Rplus Rminus Rmult (vc (cat f0 c (i * L + k))) (vc (cat f0 c ((i + n) * L + k))) (root (2 * L) k) r).
    2:{ rewrite bf2_term by lia. apply csum_ext. intros q Hq. f_equal. assert (C : (q = 0 \/ q = 1)%Z) by lia. destruct C as [-> | ->]; cbn [Z.eqb Pos.eqb]; do 2 f_equal; lia. }
    assert (Hq : forall q m, (0 <= q < 2)%Z -> m = ((i + q * n) * L + k)%Z -> cin ell (cat f0 c m)) by (intros q m Hq ->; exact (Hin q Hq)).
    apply bf2_err; [exact He|apply (Hq 0%Z); lia|apply (Hq 1%Z); lia|exact W1].
  - exists is1, cur, other. split; [exact E|]. split; [apply I; lia|]. auto.
Qed.
