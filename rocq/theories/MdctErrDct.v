(** * Rounding error of the DCT-IV in binary32 *)
From Coq Require Import Reals ZArith List Bool Lia Lra ZifyBool.
From Flocq Require Import Core.Core IEEE754.BinarySingleNaN.
From Verif Require Import Base BaseProofs FloatLaws F32Model F32Proofs SpecEncFloat MdctModel MdctProofs MdctFft MdctSpec MdctMath MdctExact MdctStream ErrNorm ErrF32 MdctErr MdctTabErr MdctErrCore.
Local Open Scope R_scope.

(** What the transforms use of the FFT, on its size [P]. *)
Definition fft_bound (FFT : Z -> list f32 -> list f32 -> option (bool * (list f32 * list f32))) (P : Z) : Prop :=
  forall y0 y1, (2 * P <= zlen y0)%Z -> (2 * P <= zlen y1)%Z -> (forall j, (0 <= j < P)%Z -> cfin (cat f0 y0 j)) -> nrm P (fun j => vc (cat f0 y0 j)) <= p2 70 ->
  exists is1 cur other, FFT P y0 y1 = Some (is1, (cur, other)) /\ within P 1 P (fun j => vc (cat f0 y0 j)) (cost P) (cat f0 cur) /\
    zlen (if is1 : bool then cur else other) = zlen y1 /\ zlen (if is1 then other else cur) = zlen y0.
Lemma fft_bound_c T a b P : (0 <= a <= 2)%Z -> (0 <= b <= 5)%Z -> fft_size a b = P -> (P <= 1000)%Z -> shape_fft T a b -> near_fft T a b -> fft_bound (fft f0 Add Sub Mul T) P.
Proof. intros Ha Hb <- HP Sh Nf y0 y1 L0 L1 F0 X0. exact (fft_err T a b y0 y1 Ha Hb HP Sh Nf L0 L1 F0 X0). Qed.

Section Dct.
Variables (FFT : Z -> list f32 -> list f32 -> option (bool * (list f32 * list f32))) (rot : @mdct_rot f32) (Q : Z).
Let P := (2 * Q)%Z.
Hypothesis HQ : (0 < Q)%Z.
Hypothesis HP : (P <= 1000)%Z.
Hypothesis Hfft : fft_bound FFT P.
Hypothesis Nr : near_rot rot (2 * P).
Hypothesis Hcost : cost P <= 140.
Let c := amp (2 * P).
Let th j := PI / IZR (2 * P) * (IZR j + 1 / 8).
Let om j : cplx := (c * cos (th j), c * sin (th j)).
Let w j := znth (r_w rot) j (d1 f0).

Let Pz : 0 < IZR P. Proof. apply IZR_lt. unfold P. lia. Qed.
Lemma c_four : 0 < c /\ c ^ 4 = / IZR P.
Proof. destruct (amp_pow (2 * P) ltac:(unfold P; lia)) as (A & B). split; [exact A|]. fold c in B. rewrite B, mult_IZR. field. lra. Qed.
Lemma c_sq : c * c = sqrt (2 / IZR (2 * P)).
Proof.
  unfold c, amp. rewrite sqrt_sqrt by apply sqrt_pos. f_equal. rewrite (mult_IZR 2 (2 * P)). field. rewrite mult_IZR. lra.
Qed.
Lemma c_P : c * c * sqrt (IZR P) = 1.
Proof.
  rewrite c_sq, <- sqrt_mult_alt.
  - replace (2 / IZR (2 * P) * IZR P) with 1 by (rewrite mult_IZR; field; lra). apply sqrt_1.
  - apply Rlt_le, Rdiv_lt_0_compat; [lra|]. rewrite mult_IZR. lra.
Qed.
Lemma c_b : / 10 <= c <= 1.
Proof.
  destruct c_four as (C0 & C4). assert (B1 : 1 <= IZR P) by (apply IZR_le; unfold P; lia). assert (B2 : IZR P <= 1000) by (apply IZR_le; exact HP).
  assert (I : / 10000 <= / IZR P <= 1) by (split; [apply Rinv_le_contravar; lra|rewrite <- Rinv_1; apply Rinv_le_contravar; lra]). rewrite <- C4 in I.
  assert (M : forall x y, 0 < x -> 0 < y -> x ^ 4 <= y ^ 4 -> x <= y).
  { intros x y Hx Hy H. destruct (Rle_lt_dec x y) as [|L]; [assumption|]. exfalso. apply (Rlt_irrefl (x ^ 4)). eapply Rle_lt_trans; [exact H|]. cbn [pow].
    assert (S2 : y * y < x * x) by (apply Rmult_gt_0_lt_compat; lra). assert (S4 : (y * y) * (y * y) < (x * x) * (x * x)) by (apply Rmult_gt_0_lt_compat; try assumption; apply Rmult_lt_0_compat; lra). lra. }
  split; apply M; try lra; cbn [pow] in *; lra.
Qed.
Lemma w_om j : (0 <= j < P)%Z -> ctab c (13 / 10 * c) (w j) (om j).
Proof.
  intros Hj. pose proof (Nr j ltac:(replace (2 * P / 2)%Z with P; [exact Hj|rewrite Z.mul_comm, Z.div_mul; lia])) as H. fold c in H. unfold om, th.
  replace (2 * PI * (IZR j + 1 / 8) / IZR (2 * (2 * P))) with (PI / IZR (2 * P) * (IZR j + 1 / 8)) in H; [exact H|]. rewrite !mult_IZR. field. lra.
Qed.

Definition g1 (j : Z) (x : cplx) : cplx := (fst x * fst (om j) + snd x * snd (om j), snd x * fst (om j) - fst x * snd (om j)).
Definition g2 (j : Z) (x : cplx) : cplx := (fst x * fst (om j) + snd x * snd (om j), fst x * snd (om j) - snd x * fst (om j)).
Lemma md_rot (x y : cplx) : 0 <= c -> sq y = c * c * sq x -> md y = c * md x.
Proof.
  intros Hc E. unfold md. rewrite E, sqrt_mult_alt by (apply Rmult_le_pos; lra). rewrite sqrt_square by exact Hc. reflexivity.
Qed.
Lemma g1_rot : rotation P c g1.
Proof.
  destruct c_four as (C0 & _). intros j _. split.
  - intros x. apply md_rot; [lra|]. unfold sq, g1, om. cbn [fst snd]. pose proof (sin2_cos2 (th j)) as S. unfold Rsqr in S.
    set (s := sin (th j)) in *. set (k := cos (th j)) in *. replace (c * c * (fst x * fst x + snd x * snd x)) with (c * c * (fst x * fst x + snd x * snd x) * (s * s + k * k)) by (rewrite S; ring). ring.
  - intros x y. unfold g1, csub. cbn [fst snd]. f_equal; ring.
Qed.
Lemma g2_rot : rotation P c g2.
Proof.
  destruct c_four as (C0 & _). intros j _. split.
  - intros x. apply md_rot; [lra|]. unfold sq, g2, om. cbn [fst snd]. pose proof (sin2_cos2 (th j)) as S. unfold Rsqr in S.
    set (s := sin (th j)) in *. set (k := cos (th j)) in *. replace (c * c * (fst x * fst x + snd x * snd x)) with (c * c * (fst x * fst x + snd x * snd x) * (s * s + k * k)) by (rewrite S; ring). ring.
  - intros x y. unfold g2, csub. cbn [fst snd]. f_equal; ring.
Qed.

Lemma dct_exact (G : Z -> R) p : (0 <= p < P)%Z -> g2 p (dftc P (fun m => g1 m (G (2 * m)%Z, G (2 * P - 1 - 2 * m)%Z)) p) = (dct4 (2 * P) G (2 * p)%Z, dct4 (2 * P) G (2 * P - 1 - 2 * p)%Z).
Proof.
  intros Hp. destruct (dct4_fft P c om (fun m => g1 m (G (2 * m)%Z, G (2 * P - 1 - 2 * m)%Z)) (dftc P (fun m => g1 m (G (2 * m)%Z, G (2 * P - 1 - 2 * m)%Z))) G) with (p := p) as (A & B); try exact Hp; try (unfold P; lia); try exact c_sq; try (intros; reflexivity).
    unfold g2. rewrite A, B. reflexivity.
Qed.
Lemma dct_norm (G : Z -> R) : nrm P (fun j => (dct4 (2 * P) G (2 * j)%Z, dct4 (2 * P) G (2 * P - 1 - 2 * j)%Z)) = nrm P (fun j => (G (2 * j)%Z, G (2 * P - 1 - 2 * j)%Z)).
Proof.
  pose proof c_b as C. rewrite (nrm_ext P _ (fun p => g2 p (dftc P (fun m => g1 m (G (2 * m)%Z, G (2 * P - 1 - 2 * m)%Z)) p))) by (intros p Hp; symmetry; apply dct_exact, Hp).
  rewrite (rotation_norm P c g2 (dftc P (fun m => g1 m (G (2 * m)%Z, G (2 * P - 1 - 2 * m)%Z)))) by (try exact g2_rot; lra). rewrite dftc_norm by (unfold P; lia).
  rewrite (rotation_norm P c g1 (fun m => (G (2 * m)%Z, G (2 * P - 1 - 2 * m)%Z))) by (try exact g1_rot; lra). set (N := nrm P _). replace (c * (sqrt (IZR P) * (c * N))) with (c * c * sqrt (IZR P) * N) by ring. rewrite c_P. ring.
Qed.

(** ** Rotation, FFT, rotation *)
Lemma dct_core (G : Z -> R) (xf : Z -> f32 * f32) (u y : list f32) : (2 * P <= zlen u)%Z -> (2 * P <= zlen y)%Z ->
  (forall j, (0 <= j < P)%Z -> cfin (xf j)) -> nrm P (fun j => vc (xf j)) <= p2 68 ->
  (forall ell j, scale_ok ell -> (0 <= j < P)%Z -> cin ell (xf j) -> cclose ell (7 * c) (cat f0 u j) (g1 j (vc (xf j)))) ->
  exists is1 cur other, FFT P u y = Some (is1, (cur, other)) /\
    zlen (if is1 : bool then cur else other) = zlen y /\ zlen (if is1 then other else cur) = zlen u /\
    forall rf, (forall ell j, scale_ok ell -> (0 <= j < P)%Z -> cin ell (cat f0 cur j) -> cclose ell (7 * c) (rf j) (g2 j (vc (cat f0 cur j)))) ->
      (forall j, (0 <= j < P)%Z -> cfin (rf j)) /\
      nrm P (fun j => csub (vc (rf j)) (dct4 (2 * P) G (2 * j)%Z, dct4 (2 * P) G (2 * P - 1 - 2 * j)%Z)) <=
        nrm P (fun j => csub (vc (xf j)) (G (2 * j)%Z, G (2 * P - 1 - 2 * j)%Z)) + 160 * ru * (nrm P (fun j => vc (xf j)) + tiny2).
Proof.
  intros Lu Ly Fx Bx H1. pose proof c_b as C. pose proof ru_b as U. destruct tiny_b as (T0 & T1). pose proof (nrm_pos P (fun j => vc (xf j))) as N0.
  assert (HP' : (0 < P <= 1000)%Z) by (unfold P in *; lia).
  assert (B7 : p2 68 <= p2 79) by (apply bpow_le; lia). assert (P69 : tiny2 <= p2 68) by (apply bpow_le; lia).
  assert (B70 : 4 * p2 68 = p2 70) by (change 70%Z with (2 + 68)%Z; rewrite (bpow_plus radix2 2 68); reflexivity).
  set (zf := cat f0 u) in *.
  assert (Fz : forall j, (0 <= j < P)%Z -> cfin (zf j)) by (apply (rot_fin P xf zf g1 (7 * c) Fx); [eapply Rle_trans; [exact Bx|exact B7]|exact H1]).
  assert (Bz : nrm P (fun j => vc (zf j)) <= p2 70).
  { pose proof (rot_err P xf zf g1 (7 * c) HP' ltac:(lra) Fx ltac:(eapply Rle_trans; [exact Bx|exact B7]) H1) as E.
    eapply Rle_trans; [apply (nrm_le_sub P _ (fun j => g1 j (vc (xf j))))|]. rewrite (rotation_norm P c g1 (fun j => vc (xf j))) by (try exact g1_rot; lra).
    set (N := nrm P (fun j => vc (xf j))) in *. assert (c * N <= 1 * N) by (apply Rmult_le_compat_r; lra).
    assert (1415 / 1000 * (7 * c) * ru * (N + tiny) <= 1 * (N + tiny)).
    { apply Rmult_le_compat_r; [lra|]. apply Rle_trans with (10 * / 16000000); [|lra]. apply Rmult_le_compat; lra. }
    lra. }
  destruct (Hfft u y Lu Ly Fz Bz) as (is1 & cur & other & E & W & La & Lb).
  exists is1, cur, other. split; [exact E|]. split; [exact La|]. split; [exact Lb|]. intros rf H2.
  assert (Hc0 : 0 <= cost P). { unfold cost. assert (X : (0 <= exp3 P)%Z) by (unfold exp3; destruct (_ =? _)%Z; [lia|]; destruct (_ =? _)%Z; lia). assert (Y : (0 <= exp2 P)%Z) by apply Z.log2_nonneg. apply IZR_le in X, Y. lra. }
  destruct (core_err P c (cost P) g1 g2 xf zf (cat f0 cur) rf (fun j => (G (2 * j)%Z, G (2 * P - 1 - 2 * j)%Z)) HP' C c_P ltac:(lra) g1_rot g2_rot Fx Bx H1 (fun _ _ => W) H2) as (F & Er).
  split; [intros j Hj; apply (F j Hj)|].
  pose proof (dct_exact G) as D.
  rewrite (nrm_ext P _ (fun j => csub (vc (rf j)) (g2 j (dftc P (fun m => g1 m (G (2 * m)%Z, G (2 * P - 1 - 2 * m)%Z)) j)))) by (intros j Hj; rewrite (D j Hj); reflexivity).
  eapply Rle_trans; [exact Er|]. apply Rplus_le_compat_l. apply Rmult_le_compat_r; [unfold tiny2 in *; lra|]. apply Rmult_le_compat_r; lra.
Qed.

(** ** The rotations of the code *)
Ltac rt Hell := pose proof c_b; eapply (close_cclose _ 3 _ _ (_, _)); [unfold vc; cbn [fst snd]; cclose_tac Hell|unfold vc; cbn [fst snd]; cclose_tac Hell|].
Lemma val_opp x : val (Bopp x) = - val x. Proof. apply B2R_Bopp. Qed.
Lemma cin_inv ell x : cin ell x -> (fin (fst x) /\ Rabs (val (fst x)) <= ell) /\ (fin (snd x) /\ Rabs (val (snd x)) <= ell).
Proof. intros ((A & B) & D & E). auto. Qed.
Lemma fin_opp x : fin (Bopp x) <-> fin x. Proof. unfold fin. rewrite is_finite_Bopp. reflexivity. Qed.

(** The pairs which are rotated. *)
Definition pairs (X : Z -> f32) (j : Z) : f32 * f32 :=
  if (j <? Q)%Z then (Bopp (X (2 * P - 1 - 2 * j)%Z), X (2 * j)%Z) else (X (2 * P - 1 - 2 * j)%Z, Bopp (X (2 * j)%Z)).
Lemma pre_close X ell j : scale_ok ell -> (0 <= j < P)%Z -> cin ell (pairs X j) ->
  cclose ell (7 * c) (pre_val Add Sub Mul Bopp Q X (w j) j) (g1 j (vc (pairs X j))).
Proof.
  intros Hell Hj Hin. destruct (w_om j Hj) as (W & W'). pose proof c_b as C. unfold pre_val, even_odd, pairs in *. fold P. set (e := X (2 * j)%Z) in *. set (o := X (2 * P - 1 - 2 * j)%Z) in *.
  destruct (j <? Q)%Z; apply cin_inv in Hin; cbn [fst snd] in Hin; rewrite ?fin_opp, ?val_opp, ?Rabs_Ropp in Hin; destruct Hin as ((F1 & A1) & (F2 & A2)).
  - rt Hell. unfold g1, vc. cbn [fst snd]. rewrite val_opp. f_equal; ring.
  - rt Hell. unfold g1, vc. cbn [fst snd]. rewrite val_opp. f_equal; ring.
Qed.
Definition ipairs (X : Z -> f32) (j : Z) : f32 * f32 := (Bopp (X (2 * j)%Z), Bopp (X (2 * P - 1 - 2 * j)%Z)).
Lemma ipre_close X ell j : scale_ok ell -> (0 <= j < P)%Z -> cin ell (ipairs X j) ->
  cclose ell (7 * c) (ipre_val Add Sub Mul Bopp Q X (w j) j) (g1 j (vc (ipairs X j))).
Proof.
  intros Hell Hj Hin. destruct (w_om j Hj) as (W & W'). pose proof c_b as C. unfold ipre_val, even_odd, ipairs in *. fold P. set (e := X (2 * j)%Z) in *. set (o := X (2 * P - 1 - 2 * j)%Z) in *.
  apply cin_inv in Hin; cbn [fst snd] in Hin; rewrite ?fin_opp, ?val_opp, ?Rabs_Ropp in Hin; destruct Hin as ((F1 & A1) & (F2 & A2)).
  rt Hell. unfold g1, vc. cbn [fst snd]. rewrite !val_opp. f_equal; ring.
Qed.
Lemma post_close z ell j : scale_ok ell -> (0 <= j < P)%Z -> cin ell z ->
  cclose ell (7 * c) (Add (Mul (snd z) (snd (w j))) (Mul (fst z) (fst (w j))), Sub (Mul (fst z) (snd (w j))) (Mul (snd z) (fst (w j)))) (g2 j (vc z)).
Proof.
  intros Hell Hj Hin. destruct (w_om j Hj) as (W & W'). apply cin_inv in Hin. destruct Hin as ((F1 & A1) & (F2 & A2)).
  rt Hell. unfold g2, vc. cbn [fst snd]. f_equal; ring.
Qed.
Lemma ipost_close z ell j : scale_ok ell -> (0 <= j < P)%Z -> cin ell z ->
  cclose ell (7 * c) (Add (Mul (fst z) (fst (w j))) (Mul (snd z) (snd (w j))), Sub (Mul (fst z) (snd (w j))) (Mul (snd z) (fst (w j)))) (g2 j (vc z)).
Proof.
  intros Hell Hj Hin. destruct (w_om j Hj) as (W & W'). apply cin_inv in Hin. destruct Hin as ((F1 & A1) & (F2 & A2)).
  rt Hell. unfold g2, vc. cbn [fst snd]. f_equal; ring.
Qed.
End Dct.
