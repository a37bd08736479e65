(** * Rounding error of the inverse transform in binary32 *)
From Coq Require Import Reals ZArith List Bool Lia Lra ZifyBool.
From Flocq Require Import Core.Core IEEE754.BinarySingleNaN.
From Verif Require Import Base BaseProofs FloatLaws F32Model F32Proofs SpecEncFloat ConfigModel MdctModel MdctProofs MdctFft MdctSpec MdctErrSpec MdctMath MdctExact MdctStream ErrNorm ErrF32 MdctErr MdctTabErr MdctErrCore MdctErrDct MdctErrFwd MdctErrTrans.
Local Open Scope R_scope.

(** ** Norms *)
Lemma norm_mono n f g : (forall i, (0 <= i < n)%Z -> Rabs (f i) <= g i) -> norm n f <= norm n g.
Proof. intros H. rewrite !norm_nrm. apply nrm_le. intros i Hi. apply md_mono; cbn [fst snd]; [apply H, Hi|rewrite Rabs_R0; lra]. Qed.
Lemma norm_add n f g : norm n (fun i => f i + g i) <= norm n f + norm n g.
Proof.
  rewrite !norm_nrm. eapply Rle_trans; [|apply nrm_triangle]. apply Req_le, nrm_ext. intros i _. unfold cadd. cbn [fst snd]. f_equal. ring.
Qed.
Lemma norm_scal n c f : 0 <= c -> norm n (fun i => c * f i) = c * norm n f.
Proof.
  intros Hc. rewrite !norm_nrm. rewrite <- nrm_scal by exact Hc. apply nrm_ext. intros i _. cbn [fst snd]. f_equal. ring.
Qed.
Lemma norm_abs n f : norm n (fun i => Rabs (f i)) = norm n f.
Proof. unfold norm. f_equal. apply sum_ext. intros i _. rewrite <- Rabs_mult. apply Rabs_pos_eq, Rle_0_sqr. Qed.
Lemma norm_const n c : (0 <= n)%Z -> 0 <= c -> norm n (fun _ => c) <= sqrt (IZR n) * c.
Proof. intros Hn Hc. rewrite norm_nrm. apply nrm_const; [exact Hn|exact Hc|]. intros. unfold md, sq. cbn [fst snd]. apply sqrt_le_sq; [exact Hc|]. apply Req_le. ring. Qed.
Lemma norm_opp n f : norm n (fun i => - f i) = norm n f.
Proof. unfold norm. f_equal. apply sum_ext. intros. ring. Qed.
Lemma seg_le N off s F : (forall i, 0 <= F i) -> (0 <= off)%Z -> (0 <= s)%Z -> (off + s <= N)%Z -> sum s (fun i => F (off + i)%Z) <= sum N F.
Proof.
  intros HF Ho Hs HN. replace N with (off + (s + (N - off - s)))%Z by ring. rewrite sum_app by lia. rewrite sum_app by lia.
  pose proof (sum_pos off F ltac:(intros; apply HF)). pose proof (sum_pos (N - off - s) (fun i => F (off + (s + i))%Z) ltac:(intros; apply HF)). lra.
Qed.
(** Two segments of a vector. *)
Lemma norm_two N n s o1 o2 f g : (0 <= s <= n)%Z -> (0 <= o1)%Z -> (o1 + s <= N)%Z -> (0 <= o2)%Z -> (o2 + (n - s) <= N)%Z ->
  ((forall q, (0 <= q < s)%Z -> f q = g (o1 + q)%Z) \/ (forall q, (0 <= q < s)%Z -> f q = g (o1 + (s - 1 - q))%Z)) ->
  ((forall q, (0 <= q < n - s)%Z -> f (s + q)%Z = g (o2 + q)%Z) \/ (forall q, (0 <= q < n - s)%Z -> f (s + q)%Z = g (o2 + (n - s - 1 - q))%Z)) ->
  norm n f <= 14143 / 10000 * norm N g.
Proof.
  intros Hs H1 H2 H3 H4 A B. pose proof sqrt2_b as S2. apply Rle_trans with (sqrt 2 * norm N g); [|apply Rmult_le_compat_r; [apply norm_pos|lra]].
  unfold norm. rewrite <- sqrt_mult_alt by lra. apply sqrt_le_1_alt. set (F i := g i * g i). assert (HF : forall i, 0 <= F i) by (intros; apply Rle_0_sqr).
  replace n with (s + (n - s))%Z at 1 by ring. rewrite sum_app by lia.
  assert (X : sum s (fun i => f i * f i) <= sum N F).
  { destruct A as [A|A].
    - rewrite (sum_ext s _ (fun i => F (o1 + i)%Z)) by (intros i Hi; rewrite (A i Hi); reflexivity). apply seg_le; try assumption; lia.
    - rewrite (sum_ext s _ (fun i => F (o1 + (s - 1 - i))%Z)) by (intros i Hi; rewrite (A i Hi); reflexivity). rewrite <- (sum_rev s (fun i => F (o1 + i)%Z)) by lia. apply seg_le; try assumption; lia. }
  assert (Y : sum (n - s) (fun i => f (s + i)%Z * f (s + i)%Z) <= sum N F).
  { destruct B as [B|B].
    - rewrite (sum_ext (n - s) _ (fun i => F (o2 + i)%Z)) by (intros i Hi; rewrite (B i Hi); reflexivity). apply seg_le; try assumption; lia.
    - rewrite (sum_ext (n - s) _ (fun i => F (o2 + (n - s - 1 - i))%Z)) by (intros i Hi; rewrite (B i Hi); reflexivity). rewrite <- (sum_rev (n - s) (fun i => F (o2 + i)%Z)) by lia. apply seg_le; try assumption; lia. }
  change (sum N (fun i => g i * g i)) with (sum N F). lra.
Qed.

(** ** One sample *)
Section Sample.
Variables (hh ww dd : f32) (I : R).
Hypothesis Fh : fin hh.
Hypothesis Fww : fin ww.
Hypothesis Fd : fin dd.
Hypothesis Bw : Rabs (val ww) <= 1064 / 1000.
Hypothesis Bh : Rabs (val hh) <= p2 70.
Hypothesis Bd : Rabs (val dd) <= p2 70.
Let h := p2 (-100).
Let ell := Rabs (val dd) + (1064 / 1000 * Rabs (val hh) + h).
Let E : R := 1064 / 1000 * Rabs (val hh - I) + 3002 / 1000 * ru * ell.
Let hpos : 0 < h. Proof. apply bpow_gt_0. Qed.
Let Hell : scale_ok ell.
Proof.
  unfold scale_ok, ell. fold h. pose proof (Rabs_pos (val dd)). pose proof (Rabs_pos (val hh)). split; [lra|]. assert (h <= p2 70) by (apply bpow_le; lia).
  assert (8 * p2 70 = p2 73) by (change 73%Z with (3 + 70)%Z; rewrite (bpow_plus radix2 3 70); reflexivity). assert (p2 73 <= p2 80) by (apply bpow_le; lia). lra.
Qed.
Let prod : close ell 1 (1001 / 1000) (Mul hh ww) (val hh * val ww).
Proof.
  apply close_prod; [exact Hell|exact Fh|exact Fww|]. rewrite Rabs_mult. pose proof (Rabs_pos (val dd)). assert (Rabs (val hh) * Rabs (val ww) <= Rabs (val hh) * (1064 / 1000)) by (apply Rmult_le_compat_l; [apply Rabs_pos|exact Bw]). unfold ell. lra.
Qed.
Let dif : Rabs (val hh * val ww - I * val ww) <= 1064 / 1000 * Rabs (val hh - I).
Proof.
  replace (val hh * val ww - I * val ww) with (val ww * (val hh - I)) by ring. rewrite Rabs_mult. apply Rmult_le_compat_r; [apply Rabs_pos|exact Bw].
Qed.
Let fin_of c k x r s : close ell c k x r -> k <= 3002 / 1000 -> Rabs (r - s) <= 1064 / 1000 * Rabs (val hh - I) -> fin x /\ Rabs (val x - s) <= E.
Proof.
  intros (F & _ & B) Hk D. split; [exact F|]. replace (val x - s) with ((val x - r) + (r - s)) by ring. eapply Rle_trans; [apply Rabs_triang|]. pose proof ru_b. destruct Hell as (L & _). fold h in L.
  assert (k * (ru * ell) <= 3002 / 1000 * (ru * ell)) by (apply Rmult_le_compat_r; [apply Rmult_le_pos; lra|exact Hk]). unfold E. lra.
Qed.
Lemma sample_mul : fin (Mul hh ww) /\ Rabs (val (Mul hh ww) - val ww * I) <= E.
Proof. apply (fin_of 1 (1001 / 1000) _ (val hh * val ww)); [exact prod|lra|]. rewrite (Rmult_comm (val ww)). exact dif. Qed.
Lemma sample_add : fin (Add dd (Mul hh ww)) /\ Rabs (val (Add dd (Mul hh ww)) - (val dd + val ww * I)) <= E.
Proof.
  apply (fin_of 2 (3002 / 1000) _ (val dd + val hh * val ww)); [|lra|].
  - eapply close_weaken; [exact Hell| | |apply close_add; [exact Hell| | | | |apply close_in; [exact Fd|]|exact prod]]; try lra. pose proof (Rabs_pos (val hh)). unfold ell. lra.
  - replace (val dd + val hh * val ww - (val dd + val ww * I)) with (val hh * val ww - I * val ww) by ring. exact dif.
Qed.
Lemma sample_sub : fin (Sub dd (Mul hh ww)) /\ Rabs (val (Sub dd (Mul hh ww)) - (val dd + val ww * - I)) <= E.
Proof.
  apply (fin_of 2 (3002 / 1000) _ (val dd - val hh * val ww)); [|lra|].
  - eapply close_weaken; [exact Hell| | |apply close_sub; [exact Hell| | | | |apply close_in; [exact Fd|]|exact prod]]; try lra. pose proof (Rabs_pos (val hh)). unfold ell. lra.
  - replace (val dd - val hh * val ww - (val dd + val ww * - I)) with (- (val hh * val ww - I * val ww)) by ring. rewrite Rabs_Ropp. exact dif.
Qed.
End Sample.

(** Error of the product of samples by a factor. *)
Lemma norm_small n : (0 <= n <= 2000)%Z -> sqrt (IZR n) * p2 (-100) <= tiny.
Proof.
  intros Hn. assert (smp : 0 < p2 (-100)) by apply bpow_gt_0. assert (sqrt (IZR n) <= 50) by (apply sqrt_le_sq; [lra|]; rewrite <- mult_IZR; apply IZR_le; lia).
  assert (1024 * p2 (-100) = tiny) by (unfold tiny; change (-90)%Z with (10 + -100)%Z; rewrite (bpow_plus radix2 10 (-100)); f_equal; cbn; lra). apply Rle_trans with (50 * p2 (-100)); [apply Rmult_le_compat_r; lra|lra].
Qed.
Lemma rescale_err n h s I c NX e : (0 <= n <= 2000)%Z -> (forall k, (0 <= k < n)%Z -> fin (at_ f0 h k)) -> fin s -> 0 < c <= 8 -> Rabs (val s - c) <= 3 * ru * c ->
  norm n (fun k => val (at_ f0 h k) - I k) <= e -> norm n I <= NX -> e <= NX + 1 -> NX <= p2 61 ->
  (forall k, (0 <= k < n)%Z -> fin (Mul (at_ f0 h k) s)) /\
  norm n (fun k => val (Mul (at_ f0 h k) s) - c * I k) <= c * (1 + 5 * ru) * e + 41 / 10 * ru * (c * NX) + 2 * ru * tiny.
Proof.
  intros Hn Fh Fs Hc Hs He HI Hen HX. pose proof ru_b as U. set (hv := fun k => val (at_ f0 h k)). change (norm n (fun k => hv k - I k) <= e) in He. assert (e0 : 0 <= e) by (eapply Rle_trans; [apply norm_pos|exact He]).
  assert (NX0 : 0 <= NX) by (eapply Rle_trans; [apply norm_pos|exact HI]).
  assert (Rc : 0 <= ru * c) by (apply Rmult_le_pos; lra).
  assert (S9 : Rabs (val s) <= c * (1 + 3 * ru)) by (replace (val s) with (c + (val s - c)) by ring; eapply Rle_trans; [apply Rabs_triang|]; rewrite (Rabs_pos_eq c) by lra; lra).
  assert (S10 : c * (1 + 3 * ru) <= 9) by (apply Rle_trans with (8 * (1 + 3 * ru)); [apply Rmult_le_compat_r; lra|lra]).
  assert (NH : norm n hv <= 2 * NX + 1) by (eapply Rle_trans; [apply (norm_le_sub _ _ I)|]; lra).
  assert (B1 : 1 <= p2 61) by (change 1 with (p2 0); apply bpow_le; lia).
  assert (B64 : 8 * p2 61 = p2 64) by (change 64%Z with (3 + 61)%Z; rewrite (bpow_plus radix2 3 61); reflexivity). assert (B100 : 16 * p2 64 <= p2 100) by (change (16 * p2 64) with (p2 4 * p2 64); rewrite <- bpow_plus; apply bpow_le; lia).
  assert (Bp : forall k, (0 <= k < n)%Z -> Rabs (hv k * val s) <= p2 100).
  { intros k Hk. rewrite Rabs_mult. eapply Rle_trans; [apply Rmult_le_compat; try apply Rabs_pos; [apply Rle_trans with (p2 64); [eapply Rle_trans; [apply (norm_ge n hv k Hk)|]; lra|apply Rle_refl]|apply Rle_trans with 16; [lra|apply Rle_refl]]|]. lra. }
  assert (K : forall k, (0 <= k < n)%Z -> fin (Mul (at_ f0 h k) s) /\ Rabs (val (Mul (at_ f0 h k) s) - c * I k) <= c * (1 + 5 * ru) * Rabs (hv k - I k) + (41 / 10 * ru * c * Rabs (I k) + rt)).
  { intros k Hk. destruct (rnd_close (hv k * val s) (Rabs (hv k * val s)) (Rle_refl _) (Bp k Hk)) as (N & E). destruct (mul_val (at_ f0 h k) s (Fh k Hk) Fs N) as (F & Vm). split; [exact F|]. rewrite Vm. change (val (at_ f0 h k)) with (hv k).
    replace (rnd32 (hv k * val s) - c * I k) with ((rnd32 (hv k * val s) - hv k * val s) + (val s * (hv k - I k) + (val s - c) * I k)) by ring.
    eapply Rle_trans; [apply Rabs_triang|]. assert (E2 : Rabs (val s * (hv k - I k) + (val s - c) * I k) <= c * (1 + 3 * ru) * Rabs (hv k - I k) + 3 * ru * c * Rabs (I k)).
    { eapply Rle_trans; [apply Rabs_triang|]. rewrite !Rabs_mult. apply Rplus_le_compat; apply Rmult_le_compat_r; try apply Rabs_pos; assumption. }
    assert (E3 : Rabs (hv k * val s) <= (Rabs (hv k - I k) + Rabs (I k)) * (c * (1 + 3 * ru))).
    { rewrite Rabs_mult. apply Rmult_le_compat; try apply Rabs_pos; [|exact S9]. replace (hv k) with ((hv k - I k) + I k) at 1 by ring. apply Rabs_triang. }
    pose proof (Rabs_pos (hv k - I k)) as P1. pose proof (Rabs_pos (I k)) as P2. set (p := Rabs (hv k - I k)) in *. set (r := Rabs (I k)) in *.
    assert (E4 : ru * Rabs (hv k * val s) <= ru * ((p + r) * (c * (1 + 3 * ru)))) by (apply Rmult_le_compat_l; lra).
    assert (E5 : ru * c * p * (3 * ru) <= ru * c * p * 1) by (apply Rmult_le_compat_l; [apply Rmult_le_pos; lra|lra]).
    assert (E6 : ru * c * r * (3 * ru) <= ru * c * r * (1 / 10)) by (apply Rmult_le_compat_l; [apply Rmult_le_pos; lra|lra]). lra. }
  split; [intros k Hk; apply (K k Hk)|].
  eapply Rle_trans; [apply norm_mono; intros k Hk; apply (K k Hk)|]. eapply Rle_trans; [apply norm_add|].
  rewrite (norm_scal n (c * (1 + 5 * ru)) (fun k => Rabs (hv k - I k))) by (apply Rmult_le_pos; lra). rewrite (norm_abs n (fun k => hv k - I k)).
  assert (A : c * (1 + 5 * ru) * norm n (fun k => hv k - I k) <= c * (1 + 5 * ru) * e) by (apply Rmult_le_compat_l; [apply Rmult_le_pos; lra|exact He]).
  assert (B : norm n (fun k => 41 / 10 * ru * c * Rabs (I k) + rt) <= 41 / 10 * ru * (c * NX) + ru * tiny).
  { assert (r0 : 0 < rt) by apply bpow_gt_0. eapply Rle_trans; [apply norm_add|]. rewrite (norm_scal n (41 / 10 * ru * c) (fun k => Rabs (I k))) by lra. rewrite norm_abs. apply Rplus_le_compat.
    - rewrite <- (Rmult_assoc _ c). apply Rmult_le_compat_l; [lra|exact HI].
    - eapply Rle_trans; [apply norm_const; [lia|lra]|]. pose proof (norm_small n Hn) as SM. replace rt with (p2 (-100) * p2 (-50)) by (rewrite <- bpow_plus; reflexivity). rewrite <- Rmult_assoc, (Rmult_comm ru). apply Rmult_le_compat; [|apply bpow_ge_0|exact SM|apply bpow_le; lia].
      apply Rmult_le_pos; [apply sqrt_pos|apply bpow_ge_0]. }
  destruct tiny_b as (T0 & _). assert (0 <= ru * tiny) by (apply Rmult_le_pos; lra). lra.
Qed.

Section Trans.
Variables (FFT : Z -> list f32 -> list f32 -> option (bool * (list f32 * list f32))) (rot : @mdct_rot f32) (win : list f32) (Q nd : Z).
Let P := (2 * Q)%Z.
Let ns := (2 * P)%Z.
Hypothesis HQ : (0 < Q)%Z.
Hypothesis HP : (P <= 1000)%Z.
Hypothesis Hfft : fft_bound FFT P.
Hypothesis Er4 : r_n4 rot = P.
Hypothesis Erw : zlen (r_w rot) = P.
Hypothesis Nr : near_rot rot (2 * P).
Hypothesis Hcost : cost P <= 140.
Hypothesis Hnd : (P <= nd <= ns)%Z.
Hypothesis Ev : exists u, (ns - nd = 2 * u)%Z.
Hypothesis Lw : zlen win = (ns + nd)%Z.
Hypothesis Fw : forall n, (0 <= n)%Z -> fin (at_ f0 win n) /\ Rabs (val (at_ f0 win n)) <= 1064 / 1000.
Let wv n := val (at_ f0 win n).
Let nsP : (2 * P / 2 = P)%Z. Proof. rewrite Z.mul_comm. apply Z.div_mul. lia. Qed.

(** The factor applied to the samples when the frame of the spectrum has another length, and
    the number it stands for. *)
Definition factor (ns ns_src : Z) (scale : f32) (c kc : R) : Prop :=
  (ns = ns_src /\ c = 1 /\ kc = 160) \/ (ns <> ns_src /\ fin scale /\ 1 <= c <= 8 /\ Rabs (val scale - c) <= 3 * ru * c /\ kc = 166).
Lemma inverse_err_rate ns_src c kc scale src d y buf : factor ns ns_src scale c kc -> (ns <= zlen (inp src y))%Z -> (nd <= zlen d)%Z -> (ns <= zlen y)%Z -> (ns <= zlen buf)%Z ->
  (forall n, (0 <= n < ns)%Z -> fin (at_ f0 (inp src y) n)) -> (forall n, (0 <= n < nd)%Z -> fin (at_ f0 d n)) ->
  let X := fun n => val (at_ f0 (inp src y) n) in let D := fun n => val (at_ f0 d n) in
  norm ns X <= p2 60 -> norm nd D <= p2 60 ->
  exists d' y', inverse_with FFT rot ns nd win ns_src scale src d y buf = Some (d', y') /\ zlen d' = zlen d /\ zlen y' = zlen y /\
    (forall q, (0 <= q < nd)%Z -> fin (at_ f0 d' q)) /\ (forall q, (0 <= q < ns)%Z -> fin (at_ f0 y' q)) /\
    norm nd (fun q => val (at_ f0 d' q) - wv (nd - 1 - q)%Z * (c * imdct ns X (2 * ns - nd + q))) <= (1505 / 1000 * kc + 5) * ru * (c * norm ns X + tiny3) /\
    norm ns (fun q => val (at_ f0 y' q) - ((if (q <? nd)%Z then D q else 0) + wv (ns + nd - 1 - q)%Z * (c * imdct ns X (ns - nd + q)))) <= (1505 / 1000 * kc + 5) * ru * (c * norm ns X + tiny3) + 4 * ru * norm nd D.
Proof.
  intros HC Lx Ld Ly Lb Fx Fd X D BX BD. unfold inverse_with. unfold ns in *.
  destruct (imdct_pre_ok f0 Add Sub Mul Bopp rot src y Q) as (u & E1 & L1 & V1); try lia. rewrite E1. cbn [bind]. rewrite nsP.
  set (G := fun n => - X n). set (xf := ipairs Q (at_ f0 (inp src y))). set (NX0 := norm (2 * P) X) in *.
  assert (HP1 : (0 < P <= 1000)%Z) by lia. pose proof ru_b as U. destruct tiny3_b as (T0 & T1 & T2 & T3 & T4). assert (N00 : 0 <= NX0) by apply norm_pos.
  assert (Xf : forall j, (0 <= j < P)%Z -> vc (xf j) = (G (2 * j)%Z, G (2 * P - 1 - 2 * j)%Z)) by (intros j Hj; unfold xf, ipairs, vc; cbn [fst snd]; rewrite !val_opp; reflexivity).
  assert (NG : norm (2 * P) G = NX0) by apply norm_opp.
  assert (NXf : nrm P (fun j => vc (xf j)) = NX0) by (rewrite <- NG, <- norm_pairs by lia; apply nrm_ext; exact Xf).
  assert (B60 : p2 60 + 1 <= p2 61) by (change 61%Z with (60 + 1)%Z; rewrite (bpow_plus radix2 60 1); change (p2 1) with 2; assert (p2 0 <= p2 60) by (apply bpow_le; lia); change (p2 0) with 1 in *; lra).
  assert (B63 : 4 * p2 61 = p2 63) by (change 63%Z with (2 + 61)%Z; rewrite (bpow_plus radix2 2 61); reflexivity). assert (B68 : p2 63 <= p2 68) by (apply bpow_le; lia). assert (B70 : p2 68 <= p2 70) by (apply bpow_le; lia).
  destruct (dct_core FFT Q HQ HP Hfft Hcost G xf u buf) as (is1 & cur & other & E3 & L3a & L3b & HR); [fold P; lia|fold P; lia| | | |].
  { intros j Hj. fold P in Hj. unfold xf, ipairs, cfin. fold P. cbn [fst snd]. rewrite !fin_opp. split; apply Fx; lia. }
  { fold P. rewrite NXf. lra. }
  { intros ell j Hell Hj Hin. rewrite V1 by exact Hj. apply ipre_close; assumption. }
  fold P in HR, E3. rewrite E3. cbn [bind].
  set (I0 := fun k => imdct (2 * P) X (P + k)).
  assert (GD : forall k, dct4 (2 * P) G k = - dct4 (2 * P) X k).
  { intros k. unfold dct4, G. rewrite Ropp_mult_distr_r. f_equal. rewrite <- (Rmult_1_l (sum _ (fun n => X n * _))), Ropp_mult_distr_l, <- sum_scal. apply sum_ext. intros; ring. }
  assert (ID : forall k, I0 k = dct4 (2 * P) G (2 * P - 1 - k)) by (intros k; unfold I0; rewrite imdct_dct4, GD by lia; reflexivity).
  assert (NI0 : norm (2 * P) I0 = NX0).
  { pose proof (dct_norm Q HQ HP G) as DN. fold P in DN. rewrite (norm_pairs P (dct4 (2 * P) G)), (norm_pairs P G) in DN by lia. rewrite <- NG, <- DN. unfold norm. f_equal. rewrite (sum_rev (2 * P) (fun i => dct4 _ _ _ * _)) by lia. apply sum_ext. intros i _. cbv beta. rewrite ID. reflexivity. }
  assert (PO : exists h, (if is1 then imdct_post_fft f0 Add Sub Mul rot None cur else imdct_post_fft f0 Add Sub Mul rot (Some cur) other) = Some h /\ zlen h = zlen buf /\
     (forall k, (0 <= k < 2 * P)%Z -> fin (at_ f0 h k)) /\ norm (2 * P) (fun k => val (at_ f0 h k) - I0 k) <= 160 * ru * (NX0 + tiny2)).
  { assert (K : forall s yy, inp s yy = cur -> zlen yy = zlen buf -> (4 * Q <= zlen cur)%Z -> exists h, imdct_post_fft f0 Add Sub Mul rot s yy = Some h /\ zlen h = zlen buf /\
      (forall k, (0 <= k < 2 * P)%Z -> fin (at_ f0 h k)) /\ norm (2 * P) (fun k => val (at_ f0 h k) - I0 k) <= 160 * ru * (NX0 + tiny2)).
    { intros s yy Ei Ly' Lc. destruct (imdct_post_ok f0 Add Sub Mul rot s yy Q) as (h & E & L & Vh); try lia; [rewrite Ei; exact Lc|].
      exists h. split; [exact E|]. split; [lia|]. rewrite Ei in Vh. cbv zeta in Vh. fold P in Vh.
      destruct (HR (fun j => (at_ f0 h (2 * P - 1 - 2 * j), at_ f0 h (2 * j)))) as (Fr & Rr).
      { intros ell j Hell Hj Hin. destruct (Vh j Hj) as (-> & ->). apply (ipost_close rot Q); assumption. }
      split.
      - intros k Hk. destruct (Z.Even_or_Odd k) as [[p Ek]|[p Ek]].
        + rewrite Ek. apply (Fr p). lia.
        + replace k with (2 * P - 1 - 2 * (P - 1 - p))%Z by lia. apply (Fr (P - 1 - p)%Z). lia.
      - rewrite <- norm_pairs by lia.
        assert (EQ : nrm P (fun j => (val (at_ f0 h (2 * j)) - I0 (2 * j)%Z, val (at_ f0 h (2 * P - 1 - 2 * j)) - I0 (2 * P - 1 - 2 * j)%Z)) =
          nrm P (fun j => csub (vc (at_ f0 h (2 * P - 1 - 2 * j), at_ f0 h (2 * j))) (dct4 (2 * P) G (2 * j), dct4 (2 * P) G (2 * P - 1 - 2 * j)))).
        { unfold nrm. f_equal. apply sum_ext. intros j _. unfold sq, csub, vc. cbn [fst snd]. rewrite !ID. replace (2 * P - 1 - (2 * P - 1 - 2 * j))%Z with (2 * j)%Z by ring. ring. }
        rewrite EQ. eapply Rle_trans; [exact Rr|]. rewrite NXf.
        assert (Z0 : nrm P (fun j => csub (vc (xf j)) (G (2 * j)%Z, G (2 * P - 1 - 2 * j)%Z)) <= 0); [|lra].
        eapply Rle_trans; [apply (nrm_const P _ 0); [lia|lra|]|lra]. intros j Hj. rewrite (Xf j Hj). unfold md, sq, csub. cbn [fst snd]. apply sqrt_le_sq; [lra|]. apply Req_le. ring. }
    destruct is1; apply K; try reflexivity; try assumption; lia. }
  destruct PO as (h0 & E4 & L4 & F40 & V40). rewrite E4. cbn [bind]. clear HR.
  set (NX := c * NX0). set (I := fun k => c * I0 k).
  assert (HCb : 1 <= c <= 8 /\ 160 <= kc <= 166) by (destruct HC as [(_ & -> & ->)|(_ & _ & ? & _ & ->)]; lra).
  assert (N0 : 0 <= NX) by (apply Rmult_le_pos; lra).
  assert (NI : norm (2 * P) I = NX) by (unfold I; rewrite norm_scal, NI0 by lra; reflexivity).
  assert (N64 : NX <= p2 63) by (unfold NX; apply Rle_trans with (8 * p2 60); [apply Rmult_le_compat; lra|change 63%Z with (3 + 60)%Z; rewrite (bpow_plus radix2 3 60); apply Req_le; reflexivity]).
  assert (RS : exists h, (if (2 * P =? ns_src)%Z then Some h0 else rescale f0 Mul h0 (2 * P) scale) = Some h /\ zlen h = zlen buf /\
     (forall k, (0 <= k < 2 * P)%Z -> fin (at_ f0 h k)) /\ norm (2 * P) (fun k => val (at_ f0 h k) - I k) <= kc * ru * (NX + 8 * tiny2)).
  { destruct HC as [(Es & Ec & Ek)|(Es & Fs & Hc & Hs & Ek)].
    - rewrite <- Es, Z.eqb_refl. exists h0. split; [reflexivity|]. split; [exact L4|]. split; [exact F40|]. unfold I, NX. rewrite Ec, Ek, Rmult_1_l.
      rewrite (norm_ext (2 * P) _ (fun k => val (at_ f0 h0 k) - I0 k)) by (intros k _; ring). eapply Rle_trans; [exact V40|]. apply Rmult_le_compat_l; lra.
    - replace (2 * P =? ns_src)%Z with false by lia. destruct (rescale_ok f0 Mul h0 (2 * P) scale Q ltac:(lia) ltac:(unfold P; lia) ltac:(lia)) as (h & E5 & L5 & V5). exists h. split; [exact E5|]. split; [lia|].
      destruct (rescale_err (2 * P) h0 scale I0 c NX0 (160 * ru * (NX0 + tiny2)) ltac:(lia) F40 Fs ltac:(lra) Hs) as (F5 & B5); try assumption.
      { rewrite NI0. lra. }
      { apply Rle_trans with (/ 50000 * (NX0 + tiny2)); [apply Rmult_le_compat_r; lra|]. lra. }
      { lra. }
      split.
      + intros k Hk. rewrite V5 by lia. replace (k <? 2 * P)%Z with true by lia. apply F5, Hk.
      + rewrite (norm_ext (2 * P) _ (fun k => val (Mul (at_ f0 h0 k) scale) - c * I0 k)) by (intros k Hk; rewrite V5 by lia; replace (k <? 2 * P)%Z with true by lia; reflexivity).
        eapply Rle_trans; [exact B5|]. rewrite Ek. unfold NX.
        assert (A1 : c * (1 + 5 * ru) * (160 * ru * (NX0 + tiny2)) <= c * (1 + / 1000000) * (160 * ru * (NX0 + tiny2))).
        { apply Rmult_le_compat_r; [apply Rmult_le_pos; [|lra]; lra|]. apply Rmult_le_compat_l; lra. }
        assert (A3 : 0 <= ru * (c * NX0)) by (apply Rmult_le_pos; [lra|apply Rmult_le_pos; lra]).
        assert (A4 : 0 <= ru * tiny2) by (apply Rmult_le_pos; lra). assert (A5 : 0 <= c * (ru * tiny2)) by (apply Rmult_le_pos; lra).
        assert (A6 : ru * tiny <= ru * (/ 1000 * tiny2)) by (apply Rmult_le_compat_l; lra).
        assert (A7 : ru * (c * tiny2) <= ru * (8 * tiny2)) by (apply Rmult_le_compat_l; [lra|apply Rmult_le_compat_r; lra]).
        lra. }
  destruct RS as (h & E5 & L5 & F4 & V4). rewrite E5. cbn [bind].
  assert (Lyo : zlen (if is1 then other else cur) = zlen y) by (rewrite L3b; exact L1).
  destruct (imdct_window_ok f0 Add Sub Mul P nd win h d (if is1 then other else cur)) as (d' & y' & E6 & Ld' & Ly' & Vd & Vy); try lia; [exact Ev|exists Q; reflexivity|].
  set (e1 := norm (2 * P) (fun k => val (at_ f0 h k) - I k)) in *.
  assert (UN : kc * ru * (NX + 8 * tiny2) <= / 50000 * (NX + 8 * tiny2)) by (apply Rmult_le_compat_r; [lra|]; apply Rle_trans with (166 * ru); [apply Rmult_le_compat_r; lra|lra]).
  set (hv := fun k => val (at_ f0 h k)) in *.
  assert (NH : norm (2 * P) hv <= (1 + / 50000) * (NX + 8 * tiny2)).
  { eapply Rle_trans; [apply (norm_le_sub _ _ I)|]. rewrite NI. change (norm (2 * P) (fun i => hv i - I i)) with e1. lra. }
  assert (B64 : 2 * p2 63 <= p2 70 /\ 1 <= p2 63) by (split; [change (2 * p2 63) with (p2 1 * p2 63); rewrite <- bpow_plus; apply bpow_le; lia|change 1 with (p2 0); apply bpow_le; lia]).
  assert (Bh : forall k, (0 <= k < 2 * P)%Z -> Rabs (hv k) <= p2 70) by (intros k Hk; eapply Rle_trans; [apply (norm_ge (2 * P) hv k Hk)|]; lra).
  assert (BDq : forall q, (0 <= q < nd)%Z -> Rabs (D q) <= p2 70) by (intros q Hq; eapply Rle_trans; [apply (norm_ge nd D q Hq)|]; lra).
  set (sm := p2 (-100)). assert (smp : 0 < sm) by apply bpow_gt_0. assert (SM : forall n, (0 <= n <= 2000)%Z -> sqrt (IZR n) * sm <= tiny).
  { intros n Hn. assert (sqrt (IZR n) <= 50) by (apply sqrt_le_sq; [lra|]; rewrite <- mult_IZR; apply IZR_le; lia).
    assert (1024 * sm = tiny) by (unfold tiny, sm; change (-90)%Z with (10 + -100)%Z; rewrite (bpow_plus radix2 10 (-100)); f_equal; cbn; lra). apply Rle_trans with (50 * sm); [apply Rmult_le_compat_r; lra|lra]. }
  (* The error of a list of samples, in terms of its indexes *)
  set (er := fun (dq : R) (k : Z) => 1064 / 1000 * Rabs (hv k - I k) + 3002 / 1000 * ru * (Rabs dq + (1064 / 1000 * Rabs (hv k) + sm))).
  assert (TOT : forall n (dq : Z -> R) (ix : Z -> Z), (0 <= n <= 2000)%Z -> (forall g, norm n (fun q => g (ix q)) <= 14143 / 10000 * norm (2 * P) g) ->
    norm n (fun q => er (dq q) (ix q)) <= (1505 / 1000 * kc + 5) * ru * (NX + tiny3) + 4 * ru * norm n dq).
  { intros n dq ix Hn Hix. unfold er.
    eapply Rle_trans; [apply norm_add|]. rewrite (norm_scal n (1064 / 1000) (fun q => Rabs (hv (ix q) - I (ix q)))) by lra. rewrite (norm_scal n (3002 / 1000 * ru) (fun q => Rabs (dq q) + (1064 / 1000 * Rabs (hv (ix q)) + sm))) by (apply Rmult_le_pos; lra).
    rewrite (norm_abs n (fun q => hv (ix q) - I (ix q))). pose proof (Hix (fun k => hv k - I k)) as A. cbv beta in A. change (norm (2 * P) (fun k => hv k - I k)) with e1 in A.
    assert (B : norm n (fun q => Rabs (dq q) + (1064 / 1000 * Rabs (hv (ix q)) + sm)) <= norm n dq + (1064 / 1000 * (14143 / 10000 * norm (2 * P) hv) + tiny)).
    { eapply Rle_trans; [apply norm_add|]. rewrite norm_abs. apply Rplus_le_compat_l. eapply Rle_trans; [apply norm_add|]. apply Rplus_le_compat.
      - rewrite (norm_scal n (1064 / 1000) (fun q => Rabs (hv (ix q)))) by lra. rewrite (norm_abs n (fun q => hv (ix q))). apply Rmult_le_compat_l; [lra|]. apply Hix.
      - eapply Rle_trans; [apply norm_const; [lia|lra]|]. apply SM. lia. }
    pose proof (norm_pos n dq) as ND0. set (ND := norm n dq) in *.
    assert (B2 : 3002 / 1000 * ru * norm n (fun q => Rabs (dq q) + (1064 / 1000 * Rabs (hv (ix q)) + sm)) <= 3002 / 1000 * ru * (ND + 1505 / 1000 * (1 + / 50000) * (NX + tiny3))).
    { apply Rmult_le_compat_l; [apply Rmult_le_pos; lra|]. eapply Rle_trans; [exact B|]. lra. }
    assert (A2 : 1064 / 1000 * norm n (fun q => hv (ix q) - I (ix q)) <= 1505 / 1000 * (kc * ru * (NX + tiny3))).
    { assert (kc * ru * (NX + 8 * tiny2) <= kc * ru * (NX + tiny3)) by (apply Rmult_le_compat_l; [apply Rmult_le_pos; lra|lra]). assert (0 <= e1) by apply norm_pos. lra. }
    assert (0 <= ru * (NX + tiny3)) by (apply Rmult_le_pos; lra). assert (0 <= ru * ND) by (apply Rmult_le_pos; lra). lra. }
  exists d', y'. split; [exact E6|]. split; [exact Ld'|]. split; [lia|].
  assert (FA : forall q, (0 <= q < nd)%Z -> fin (at_ f0 d' q) /\ Rabs (val (at_ f0 d' q) - wv (nd - 1 - q)%Z * (c * imdct (2 * P) X (2 * (2 * P) - nd + q))) <= er 0 (if (q <? nd - P)%Z then 3 * P - nd + q else P + nd - 1 - q)%Z).
  { intros q Hq. rewrite Vd by exact Hq. unfold iwin_d. set (ix := (if (q <? nd - P)%Z then 3 * P - nd + q else P + nd - 1 - q)%Z).
    assert (Hix : (0 <= ix < 2 * P)%Z) by (unfold ix; destruct (q <? nd - P)%Z eqn:C; lia).
    assert (EI : c * imdct (2 * P) X (2 * (2 * P) - nd + q) = I ix).
    { unfold ix, I, I0. f_equal. destruct (q <? nd - P)%Z eqn:C.
      - f_equal. ring.
      - replace (2 * (2 * P) - nd + q)%Z with (2 * P + (2 * P - nd + q))%Z by ring. rewrite imdct_even by lia. f_equal. ring. }
    rewrite EI. unfold wv. destruct (Fw (nd - 1 - q)%Z ltac:(lia)) as (W1 & W2).
    assert (Z0 : fin f0) by reflexivity. pose proof (sample_mul (at_ f0 h ix) (at_ f0 win (nd - 1 - q)) f0 (I ix) (F4 ix Hix) W1 W2 (Bh ix Hix)) as S. change (val f0) with 0 in S. apply S. rewrite Rabs_R0. apply bpow_ge_0. }
  assert (FB : forall q, (0 <= q < 2 * P)%Z -> fin (at_ f0 y' q) /\ Rabs (val (at_ f0 y' q) - ((if (q <? nd)%Z then D q else 0) + wv (2 * P + nd - 1 - q)%Z * (c * imdct (2 * P) X (2 * P - nd + q)))) <=
     er (if (q <? nd)%Z then D q else 0) (if (q <? nd - P)%Z then nd - P - 1 - q else q - (nd - P))%Z).
  { intros q Hq. rewrite Vy by exact Hq. unfold iwin_y. cbv zeta. unfold wv. destruct (Fw (2 * P + nd - 1 - q)%Z ltac:(lia)) as (W1 & W2). destruct (q <? nd - P)%Z eqn:C.
    - replace (q <? nd)%Z with true by lia. assert (Hk : (0 <= nd - P - 1 - q < 2 * P)%Z) by lia. rewrite (imdct_odd P X (2 * P - nd + q)) by lia.
      replace (2 * P - 1 - (2 * P - nd + q))%Z with (P + (nd - P - 1 - q))%Z by ring. rewrite <- Ropp_mult_distr_r. fold (I0 (nd - P - 1 - q)%Z). fold (I (nd - P - 1 - q)%Z). apply sample_sub; [apply F4, Hk|exact W1|apply Fd; lia|exact W2|apply Bh, Hk|apply BDq; lia].
    - assert (Hk : (0 <= q - (nd - P) < 2 * P)%Z) by lia. replace (2 * P - nd + q)%Z with (P + (q - (nd - P)))%Z by ring. fold (I0 (q - (nd - P))%Z). fold (I (q - (nd - P))%Z). destruct (q <? nd)%Z eqn:C2.
      + apply sample_add; [apply F4, Hk|exact W1|apply Fd; lia|exact W2|apply Bh, Hk|apply BDq; lia].
      + rewrite Rplus_0_l. assert (Z0 : fin f0) by reflexivity. pose proof (sample_mul (at_ f0 h (q - (nd - P))) (at_ f0 win (2 * P + nd - 1 - q)) f0 (I (q - (nd - P))%Z) (F4 _ Hk) W1 W2 (Bh _ Hk)) as S. change (val f0) with 0 in S. apply S. rewrite Rabs_R0. apply bpow_ge_0. }
  split; [intros q Hq; apply (FA q Hq)|]. split; [intros q Hq; apply (FB q Hq)|]. split.
  - eapply Rle_trans; [apply norm_mono; intros q Hq; apply (FA q Hq)|]. eapply Rle_trans; [apply (TOT nd (fun _ => 0) (fun q => (if (q <? nd - P)%Z then 3 * P - nd + q else P + nd - 1 - q)%Z)); [lia|]|].
    + intros g. apply (norm_two (2 * P) nd (nd - P) (3 * P - nd) P); try lia.
      * left. intros q Hq. replace (q <? nd - P)%Z with true by lia. reflexivity.
      * right. intros q Hq. replace (nd - P + q <? nd - P)%Z with false by lia. f_equal. lia.
    + assert (Z0 : norm nd (fun _ => 0) <= 0) by (eapply Rle_trans; [apply norm_const; [lia|lra]|lra]). assert (ru * norm nd (fun _ => 0) <= ru * 0) by (apply Rmult_le_compat_l; lra). lra.
  - eapply Rle_trans; [apply norm_mono; intros q Hq; apply (FB q Hq)|]. eapply Rle_trans; [apply (TOT (2 * P)%Z (fun q => if (q <? nd)%Z then D q else 0) (fun q => (if (q <? nd - P)%Z then nd - P - 1 - q else q - (nd - P))%Z)); [lia|]|].
    + intros g. apply (norm_two (2 * P) (2 * P) (nd - P) 0 0); try lia.
      * right. intros q Hq. replace (q <? nd - P)%Z with true by lia. f_equal. 
      * left. intros q Hq. replace (nd - P + q <? nd - P)%Z with false by lia. f_equal. lia.
    + apply Rplus_le_compat_l. apply Rmult_le_compat_l; [lra|]. apply Req_le. unfold norm. f_equal. replace (2 * P)%Z with (nd + (2 * P - nd))%Z by ring. rewrite sum_app by lia.
      rewrite (sum_ext (2 * P - nd) _ (fun _ => 0 * 0)) by (intros i Hi; replace (nd + i <? nd)%Z with false by lia; reflexivity). rewrite sum_scal, Rmult_0_l, Rplus_0_r. apply sum_ext. intros i Hi. replace (i <? nd)%Z with true by lia. reflexivity.
Qed.
Lemma inverse_err scale src d y buf : (ns <= zlen (inp src y))%Z -> (nd <= zlen d)%Z -> (ns <= zlen y)%Z -> (ns <= zlen buf)%Z ->
  (forall n, (0 <= n < ns)%Z -> fin (at_ f0 (inp src y) n)) -> (forall n, (0 <= n < nd)%Z -> fin (at_ f0 d n)) ->
  let X := fun n => val (at_ f0 (inp src y) n) in let D := fun n => val (at_ f0 d n) in
  norm ns X <= p2 60 -> norm nd D <= p2 60 ->
  exists d' y', inverse_with FFT rot ns nd win ns scale src d y buf = Some (d', y') /\ zlen d' = zlen d /\ zlen y' = zlen y /\
    (forall q, (0 <= q < nd)%Z -> fin (at_ f0 d' q)) /\ (forall q, (0 <= q < ns)%Z -> fin (at_ f0 y' q)) /\
    norm nd (fun q => val (at_ f0 d' q) - wv (nd - 1 - q)%Z * imdct ns X (2 * ns - nd + q)) <= 247 * ru * (norm ns X + tiny3) /\
    norm ns (fun q => val (at_ f0 y' q) - ((if (q <? nd)%Z then D q else 0) + wv (ns + nd - 1 - q)%Z * imdct ns X (ns - nd + q))) <= 247 * ru * (norm ns X + tiny3) + 4 * ru * norm nd D.
Proof.
  intros Lx Ld Ly Lb Fx Fd X D BX BD. destruct (inverse_err_rate ns 1 160 scale src d y buf) as (d' & y' & E & L1 & L2 & F1 & F2 & B1 & B2); try assumption; [left; auto|].
  exists d', y'. split; [exact E|]. split; [exact L1|]. split; [exact L2|]. split; [exact F1|]. split; [exact F2|]. fold X in B1, B2. rewrite Rmult_1_l in B1, B2.
  assert (K : (1505 / 1000 * 160 + 5) * ru * (norm ns X + tiny3) <= 247 * ru * (norm ns X + tiny3)).
  { pose proof ru_b. destruct tiny3_b as (_ & _ & _ & ? & _). pose proof (norm_pos ns X). assert (0 <= ru * (norm ns X + tiny3)); [|lra]. apply Rmult_le_pos; [lra|]. assert (0 <= tiny3) by apply bpow_ge_0. lra. }
  split.
  - eapply Rle_trans; [|eapply Rle_trans; [exact B1|exact K]]. apply Req_le, norm_ext. intros q _. rewrite Rmult_1_l. reflexivity.
  - eapply Rle_trans; [|eapply Rle_trans; [exact B2|apply Rplus_le_compat_r, K]]. apply Req_le, norm_ext. intros q _. rewrite Rmult_1_l. reflexivity.
Qed.
End Trans.
