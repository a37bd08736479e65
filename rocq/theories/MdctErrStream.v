(** * Streams through the transforms in binary32 *)
From Coq Require Import Reals ZArith List Bool Lia Lra ZifyBool.
From Flocq Require Import Core.Core IEEE754.BinarySingleNaN.
From Verif Require Import Base BaseProofs FloatLaws FloatOps F32Model F32Proofs SpecEncFloat ConfigModel MdctModel MdctTables MdctProofs MdctFft MdctSpec MdctErrSpec MdctMath MdctExact MdctStream MdctWindows MdctFloat SynthModel EncModel FrontRun
  ErrNorm ErrF32 MdctErr MdctTabErr MdctErrCore MdctErrDct MdctErrFwd MdctErrTrans MdctErrInv MdctErrCode.
Import ListNotations.
Local Open Scope R_scope.

(** ** Norms of the exact transforms *)
Lemma dct4_norm Q G : (0 < Q)%Z -> (2 * Q <= 1000)%Z -> norm (2 * (2 * Q)) (dct4 (2 * (2 * Q)) G) = norm (2 * (2 * Q)) G.
Proof. intros H1 H2. rewrite <- !(norm_pairs (2 * Q)) by lia. apply dct_norm; assumption. Qed.
Lemma folded_norm P u : (0 <= P)%Z -> norm (2 * P) (folded P u) <= 1415 / 1000 * norm (4 * P) u.
Proof.
  intros HP. rewrite <- norm_halves by lia. rewrite <- norm_quarters by lia. rewrite <- nrm_scal by lra. apply nrm_le. intros m Hm. cbn [fst snd]. unfold folded.
  replace (P - 1 - m <? P)%Z with true by lia. replace (P + m <? P)%Z with false by lia. replace (P - 1 - (P - 1 - m))%Z with m by ring. replace (P + m - P)%Z with m by ring. apply md_mono; cbn [fst snd].
  - rewrite Rabs_Ropp. unfold fold_hi. replace (2 * (2 * P))%Z with (4 * P)%Z by ring. apply md_add2.
  - unfold fold_lo. apply md_add2.
Qed.
Lemma mdct_norm Q w t : (0 < Q)%Z -> (2 * Q <= 1000)%Z -> let ns := (2 * (2 * Q))%Z in norm ns (mdct ns w t) <= 1415 / 1000 * norm (2 * ns) (fun n => w n * t n).
Proof.
  intros H1 H2 ns. rewrite (norm_ext ns _ (dct4 ns (folded (2 * Q) (fun n => w n * t n)))) by (intros; apply mdct_folded; lia). unfold ns. rewrite dct4_norm by assumption.
  replace (2 * (2 * (2 * Q)))%Z with (4 * (2 * Q))%Z by ring. apply folded_norm. lia.
Qed.
Lemma imdct_norm Q X : (0 < Q)%Z -> (2 * Q <= 1000)%Z -> let ns := (2 * (2 * Q))%Z in norm (2 * ns) (imdct ns X) = sqrt 2 * norm ns X.
Proof.
  intros H1 H2 ns. assert (DN : norm ns X = norm ns (dct4 ns X)) by (symmetry; apply dct4_norm; assumption). rewrite DN. clear DN. set (P := (2 * Q)%Z). assert (HP : (0 < P)%Z) by lia. set (f := imdct ns X). unfold norm. rewrite <- sqrt_mult_alt by lra. f_equal.
  replace (2 * ns)%Z with (2 * P + 2 * P)%Z by (unfold ns, P; ring). rewrite sum_app by lia. rewrite (sum_ends P) by lia. rewrite (sum_ends P (fun i => f (2 * P + i)%Z * _)) by lia.
  replace (sum ns (fun i => dct4 ns X i * dct4 ns X i)) with (sum (2 * P) (fun m => f (P + m)%Z * f (P + m)%Z)).
  2:{ change ns with (2 * P)%Z. rewrite (sum_rev (2 * P) (fun i => dct4 (2 * P) X i * _)) by lia. apply sum_ext. intros m _. unfold f. change ns with (2 * P)%Z. rewrite imdct_dct4 by exact HP. ring. }
  rewrite (sum_halves P) by lia. rewrite <- sum_add, <- sum_scal. apply sum_ext. intros m Hm.
  replace (P + (P - 1 - m))%Z with (2 * P - 1 - m)%Z by ring. replace (P + (P + m))%Z with (2 * P + m)%Z by ring.
  assert (E1 : f m = - f (2 * P - 1 - m)%Z) by (apply imdct_odd; exact HP). assert (E2 : f (2 * P + m)%Z = f (2 * P + (2 * P - 1 - m))%Z) by (unfold f; change ns with (2 * P)%Z; rewrite imdct_even by exact HP; f_equal; ring).
  rewrite <- E2, E1. ring.
Qed.
Lemma norm_seg N off s f : (0 <= off)%Z -> (0 <= s)%Z -> (off + s <= N)%Z -> norm s (fun q => f (off + q)%Z) <= norm N f.
Proof. intros H1 H2 H3. unfold norm. apply sqrt_le_1_alt. apply (seg_le N off s (fun i => f i * f i)); try assumption. intros. apply Rle_0_sqr. Qed.
Lemma imdct_sub ns X Y n : imdct ns (fun k => X k - Y k) n = imdct ns X n - imdct ns Y n.
Proof. unfold imdct. rewrite <- Rmult_minus_distr_l, <- sum_sub. f_equal. apply sum_ext. intros. ring. Qed.

Section Frame.
Variables (dt sr : Z).
Hypothesis Hc : has_transform dt sr.
Let ns := c_ns dt sr.
Let nd := c_nd dt sr.
Let w := the_win dt sr.

Lemma w_le n : (0 <= n)%Z -> Rabs (w n) <= 1064 / 1000.
Proof. intros Hn. destruct (win_at dt sr n Hc Hn) as ((_ & B) & E). rewrite E in B. exact B. Qed.
Lemma w_null n : (ns + nd <= n)%Z -> w n = 0.
Proof. destruct (code_sizes win_value dt sr Hc) as (_ & _ & W). apply (w_zero dt sr (code_win win_value dt sr) W). Qed.

(** A segment of the inverse transform on the reversed window. *)
Definition syn (X : Z -> R) (n : Z) : R := w (2 * ns - 1 - n)%Z * imdct ns X n.
Lemma syn_norm X off s : (0 <= off)%Z -> (0 <= s)%Z -> (off + s <= 2 * ns)%Z -> norm s (fun q => syn X (off + q)%Z) <= 1506 / 1000 * norm ns X.
Proof.
  intros H1 H2 H3. destruct (cfg_ok dt sr Hc) as (Q & HQ & _ & _ & _ & Ens & _ & _ & _ & HM). fold ns in Ens, HM. unfold MAX_NS in HM.
  eapply Rle_trans; [apply (norm_seg (2 * ns) off s (syn X)); assumption|]. apply Rle_trans with (1064 / 1000 * norm (2 * ns) (imdct ns X)).
  - rewrite <- (norm_abs _ (imdct ns X)), <- norm_scal by lra. apply norm_mono. intros n Hn. unfold syn. rewrite Rabs_mult. apply Rmult_le_compat_r; [apply Rabs_pos|]. apply w_le. lia.
  - assert (E : norm (2 * ns) (imdct ns X) = sqrt 2 * norm ns X) by (rewrite Ens; apply imdct_norm; lia). rewrite E. pose proof sqrt2_b. pose proof (norm_pos ns X). nra.
Qed.

Variables (FFT : Z -> list f32 -> list f32 -> option (bool * (list f32 * list f32))) (junk : f32).
Hypothesis HF : forall dt sr, has_transform dt sr -> fft_bound FFT (c_ns dt sr / 2).
(** One frame: the transform of the encoder, then that of the decoder. *)
Lemma frame_err x de dd ybuf t : zlen x = ns -> zlen de = nd -> zlen dd = nd -> (ns <= zlen ybuf)%Z -> Forall fin x -> Forall fin de -> Forall fin dd ->
  (forall n, (0 <= n < ns + nd)%Z -> val (at_ f0 (de ++ x) n) = t n) ->
  let V := norm (2 * ns) (fun n => w n * t n) in let M := mdct ns w t in
  V <= p2 50 -> norm nd (fun q => val (at_ f0 dd q)) <= p2 60 ->
  exists de' X dd' o, fwd FFT junk dt sr sr x de ybuf = Some (de', X) /\ inv FFT junk dt sr sr (Some X) dd ybuf = Some (dd', o) /\
    de' = skipn (Z.to_nat (ns - nd)) x /\ zlen dd' = nd /\ zlen o = zlen ybuf /\ Forall fin dd' /\ (forall q, (0 <= q < ns)%Z -> fin (at_ f0 o q)) /\
    norm nd (fun q => val (at_ f0 dd' q) - syn M (2 * ns - nd + q)%Z) <= 700 * ru * (V + tiny3) /\
    norm ns (fun q => val (at_ f0 o q) - ((if (q <? nd)%Z then val (at_ f0 dd q) else 0) + syn M (ns - nd + q)%Z)) <= 700 * ru * (V + tiny3) + 4 * ru * norm nd (fun q => val (at_ f0 dd q)).
Proof.
  intros Lx Le Ld Ly Fx Fe Fd Ht V M HV HD. destruct (cfg_ok dt sr Hc) as (Q & HQ & _ & _ & _ & Ens & _ & Hnd & _ & HM). fold ns nd in Ens, HM, Hnd. unfold MAX_NS in HM.
  assert (TE : forall n, (0 <= n)%Z -> w n * val (at_ f0 (de ++ x) n) = w n * t n).
  { intros n Hn. destruct (Z_lt_le_dec n (ns + nd)) as [L|L]; [rewrite Ht by lia; reflexivity|rewrite w_null by exact L; ring]. }
  assert (NV : norm (2 * ns) (fun n => w n * val (at_ f0 (de ++ x) n)) = V) by (apply norm_ext; intros n Hn; apply TE; lia).
  assert (P5060 : p2 50 * 1024 = p2 60) by (change 60%Z with (50 + 10)%Z; rewrite (bpow_plus radix2 50 10); reflexivity). pose proof (bpow_gt_0 radix2 50) as P50. assert (P1 : 1 <= p2 50) by (change 1 with (p2 0); apply bpow_le; lia).
  destruct (forward_code FFT junk HF dt sr x de ybuf Hc Lx Le Ly Fx Fe) as (de' & Xl & E1 & L1 & V1 & F1 & B1).
  { fold ns. change (the_win dt sr) with w. rewrite NV. lra. }
  fold ns in F1, B1, V1. change (the_win dt sr) with w in B1. rewrite NV in B1. set (X := fun n => val (at_ f0 Xl n)) in *.
  assert (B1' : norm ns (fun k => X k - M k) <= 231 * ru * (V + tiny3)).
  { eapply Rle_trans; [|exact B1]. apply Req_le, norm_ext. intros k _. f_equal. unfold M, mdct. f_equal. apply sum_ext. intros n Hn. rewrite TE by lia. reflexivity. }
  clear B1. pose proof ru_b as U. destruct tiny3_b as (_ & _ & _ & _ & T1). assert (T0 : 0 < tiny3) by apply bpow_gt_0. assert (V0 : 0 <= V) by apply norm_pos.
  assert (NM : norm ns M <= 1415 / 1000 * V) by (unfold M, V; rewrite Ens; apply mdct_norm; lia).
  assert (NX : norm ns X <= 1415 / 1000 * V + 231 * ru * (V + tiny3)) by (eapply Rle_trans; [apply (norm_le_sub ns X M)|lra]).
  assert (RT : 231 * ru * (V + tiny3) <= / 1000 * (V + tiny3)) by (apply Rmult_le_compat_r; lra).
  destruct (inverse_code FFT junk HF dt sr (Some Xl) dd ybuf Hc) as (dd' & o & E2 & L2 & L2' & F2 & F2' & B2 & B2').
  { cbn [inp]. rewrite L1. exact Ly. } { exact Ld. } { exact Ly. } { exact F1. } { exact Fd. }
  { cbn [inp]. fold ns. change (norm ns X <= p2 60). lra. } { exact HD. }
  cbn [inp] in B2, B2'. fold ns nd X in B2, B2'. change (the_win dt sr) with w in B2, B2'.
  assert (SE : forall off s, (0 <= off)%Z -> (0 <= s)%Z -> (off + s <= 2 * ns)%Z -> norm s (fun q => syn X (off + q)%Z - syn M (off + q)%Z) <= 348 * ru * (V + tiny3)).
  { intros off s H1 H2 H3. eapply Rle_trans; [apply Req_le, (norm_ext s _ (fun q => syn (fun k => X k - M k) (off + q)%Z)); intros q _; unfold syn; rewrite imdct_sub; ring|].
    eapply Rle_trans; [apply syn_norm; assumption|]. assert (0 <= ru * (V + tiny3)) by (apply Rmult_le_pos; lra). lra. }
  assert (IE : 247 * ru * (norm ns X + tiny3) <= 352 * ru * (V + tiny3)).
  { assert (0 <= ru * V) by (apply Rmult_le_pos; lra). assert (0 <= ru * tiny3) by (apply Rmult_le_pos; lra).
    assert (ru * norm ns X <= ru * (1416 / 1000 * V + / 1000 * tiny3)) by (apply Rmult_le_compat_l; lra). lra. }
  exists de', Xl, dd', o. split; [exact E1|]. split; [exact E2|]. split; [exact V1|]. split; [rewrite L2; exact Ld|]. split; [exact L2'|]. split; [exact F2|]. split; [exact F2'|]. split.
  - apply Rle_trans with (norm nd (fun q => val (at_ f0 dd' q) - syn X (2 * ns - nd + q)%Z) + norm nd (fun q => syn X (2 * ns - nd + q)%Z - syn M (2 * ns - nd + q)%Z)).
    + eapply Rle_trans; [|apply norm_add]. apply Req_le, norm_ext. intros q _. ring.
    + specialize (SE (2 * ns - nd)%Z nd ltac:(lia) ltac:(lia) ltac:(lia)). change (fun q : Z => val (at_ f0 dd' q) - syn X (2 * ns - nd + q)%Z) with (fun q : Z => val (at_ f0 dd' q) - w (2 * ns - 1 - (2 * ns - nd + q))%Z * imdct ns X (2 * ns - nd + q)%Z). lra.
  - set (D := fun q : Z => if (q <? nd)%Z then val (at_ f0 dd q) else 0) in *.
    apply Rle_trans with (norm ns (fun q => val (at_ f0 o q) - (D q + syn X (ns - nd + q)%Z)) + norm ns (fun q => syn X (ns - nd + q)%Z - syn M (ns - nd + q)%Z)).
    + eapply Rle_trans; [|apply norm_add]. apply Req_le, norm_ext. intros q _. unfold D. ring.
    + specialize (SE (ns - nd)%Z ns ltac:(lia) ltac:(lia) ltac:(lia)). change (fun q : Z => val (at_ f0 o q) - (D q + syn X (ns - nd + q)%Z)) with (fun q : Z => val (at_ f0 o q) - ((if (q <? nd)%Z then val (at_ f0 dd q) else 0) + w (2 * ns - 1 - (ns - nd + q))%Z * imdct ns X (ns - nd + q)%Z)). lra.
Qed.
End Frame.

(** ** Streams: the transform of the encoder of each frame, then that of the decoder, with the
    states that the codec keeps (src/lc3.c:313, 644-651). *)
Fixpoint fchain (nan : Z) (junk : f32) (dt sr : Z) (ybuf : list f32) (frames : list (list f32)) (de dd : list f32) : option (list (list f32)) :=
  match frames with
  | [] => Some []
  | x :: r =>
    do e <- forward nan junk dt sr sr x de ybuf;
    do o <- inverse (f32_ops nan) junk dt sr sr (Some (snd e)) dd ybuf;
    do os <- fchain nan junk dt sr ybuf r (fst e) (fst o);
    Some (snd o :: os)
  end.
(** The same, on any FFT. *)
Fixpoint chain_with (FFT : Z -> list f32 -> list f32 -> option (bool * (list f32 * list f32))) (junk : f32) (dt sr : Z) (ybuf : list f32) (frames : list (list f32)) (de dd : list f32) : option (list (list f32)) :=
  match frames with
  | [] => Some []
  | x :: r =>
    do e <- fwd FFT junk dt sr sr x de ybuf;
    do o <- inv FFT junk dt sr sr (Some (snd e)) dd ybuf;
    do os <- chain_with FFT junk dt sr ybuf r (fst e) (fst o);
    Some (snd o :: os)
  end.
Lemma fchain_c nan junk dt sr ybuf frames : forall de dd, fchain nan junk dt sr ybuf frames de dd = chain_with fft_c junk dt sr ybuf frames de dd.
Proof.
  induction frames as [|x r IH]; intros de dd; cbn [fchain chain_with]; [reflexivity|]. rewrite (forward_fwd nan).
  destruct (fwd fft_c junk dt sr sr x de ybuf) as [e|]; cbn [bind]; [|reflexivity]. rewrite (inverse_inv nan).
  destruct (inv fft_c junk dt sr sr (Some (snd e)) dd ybuf) as [o|]; cbn [bind]; [|reflexivity]. rewrite IH. reflexivity.
Qed.

Lemma norm_trim n m f : (0 <= n <= m)%Z -> norm m (fun q => if (q <? n)%Z then f q else 0) = norm n f.
Proof.
  intros H. unfold norm. f_equal. replace m with (n + (m - n))%Z by ring. rewrite sum_app by lia.
  rewrite (sum_ext n _ (fun i => f i * f i)) by (intros i Hi; replace (i <? n)%Z with true by lia; reflexivity).
  rewrite (sum_ext (m - n) _ (fun _ => 0)) by (intros i Hi; replace (n + i <? n)%Z with false by lia; ring). unfold sum at 2. rewrite sum_to_zero. ring.
Qed.

Section Stream.
Variables (FFT : Z -> list f32 -> list f32 -> option (bool * (list f32 * list f32))) (junk : f32) (dt sr : Z) (ybuf : list f32) (S : Z -> R).
Hypothesis HF : forall dt sr, has_transform dt sr -> fft_bound FFT (c_ns dt sr / 2).
Hypothesis Hc : has_transform dt sr.
Let ns := c_ns dt sr.
Let nd := c_nd dt sr.
Let w := the_win dt sr.
Hypothesis Ly : (ns <= zlen ybuf)%Z.
Hypothesis HS : forall p, Rabs (S p) <= 2 ^ 31.

Let t (i n : Z) : R := S (i * ns - nd + n)%Z.
Let V (i : Z) : R := norm (2 * ns) (fun n => w n * t i n).
Let ov (i q : Z) : R := syn dt sr (mdct ns w (t (i - 1))) (2 * ns - nd + q)%Z.
(** The size of the signal around the frame [i]: the frame and the two before. *)
Definition around (i : Z) : R := norm (3 * ns) (fun n => S ((i - 2) * ns + n)%Z).

Lemma V_around i : V i <= 1064 / 1000 * around i /\ V (i - 1) <= 1064 / 1000 * around i.
Proof.
  destruct (cfg_ok dt sr Hc) as (Q & HQ & _ & _ & _ & Ens & _ & Hnd & _ & HM). fold ns nd in Ens, HM, Hnd.
  assert (K : forall j, V j <= 1064 / 1000 * norm (ns + nd) (t j)).
  { intros j. unfold V. rewrite (norm_ext (2 * ns) _ (fun n => if (n <? ns + nd)%Z then w n * t j n else 0)) by (intros n Hn; destruct (n <? ns + nd)%Z eqn:C; [reflexivity|unfold w; rewrite (w_null dt sr Hc) by (fold ns nd; lia); ring]).
    rewrite (norm_trim (ns + nd) (2 * ns) (fun n => w n * t j n)) by lia. rewrite <- (norm_abs _ (t j)), <- norm_scal by lra. apply norm_mono. intros n Hn. rewrite Rabs_mult. apply Rmult_le_compat_r; [apply Rabs_pos|]. apply (w_le dt sr Hc). lia. }
  split.
  - eapply Rle_trans; [apply K|]. apply Rmult_le_compat_l; [lra|]. unfold around. rewrite (norm_ext (ns + nd) (t i) (fun q => (fun n => S ((i - 2) * ns + n)%Z) (2 * ns - nd + q)%Z)) by (intros q _; unfold t; f_equal; ring). apply (norm_seg (3 * ns) (2 * ns - nd) (ns + nd) (fun n => S ((i - 2) * ns + n)%Z)); lia.
  - eapply Rle_trans; [apply K|]. apply Rmult_le_compat_l; [lra|]. unfold around. rewrite (norm_ext (ns + nd) (t (i - 1)) (fun q => (fun n => S ((i - 2) * ns + n)%Z) (ns - nd + q)%Z)) by (intros q _; unfold t; f_equal; ring). apply (norm_seg (3 * ns) (ns - nd) (ns + nd) (fun n => S ((i - 2) * ns + n)%Z)); lia.
Qed.
Lemma V_max i : V i <= p2 40.
Proof.
  destruct (cfg_ok dt sr Hc) as (Q & HQ & _ & _ & _ & Ens & _ & Hnd & _ & HM). fold ns nd in Ens, HM, Hnd. unfold MAX_NS in HM.
  eapply Rle_trans; [apply (norm_mono _ _ (fun _ => 1064 / 1000 * 2 ^ 31))|].
  - intros n Hn. rewrite Rabs_mult. apply Rmult_le_compat; try apply Rabs_pos; [apply (w_le dt sr Hc); lia|apply HS].
  - eapply Rle_trans; [apply norm_const; [lia|lra]|].
    assert (S1 : sqrt (IZR (2 * ns)) <= 44).
    { rewrite <- (sqrt_square 44) by lra. apply sqrt_le_1_alt. replace (44 * 44) with 1936 by lra. apply IZR_le. lia. }
    pose proof (sqrt_pos (IZR (2 * ns))). replace (p2 40) with (512 * 2 ^ 31) by (rewrite (pow_IZR 2 31), <- mult_IZR; reflexivity). assert (0 < 2 ^ 31) by (apply pow_lt; lra). nra.
Qed.

(** The windows of the two sides and the overlap: the samples, with the gain of the windows. *)
Lemma tdac i q : (0 <= q < ns)%Z ->
  (if (q <? nd)%Z then ov i q else 0) + syn dt sr (mdct ns w (t i)) (ns - nd + q)%Z = window_gain ns w ((ns - nd + q) mod ns) * S (i * ns + q - (2 * nd - ns))%Z.
Proof.
  intros Hq. destruct (cfg_ok dt sr Hc) as (Q & HQ & _ & _ & _ & Ens & _ & Hnd & _ & HM). fold ns nd in Ens, HM, Hnd.
  assert (IM : forall j n, (0 <= n < 2 * ns)%Z -> imdct ns (mdct ns w (t j)) n =
     if (n <? ns)%Z then w n * t j n - w (ns - 1 - n)%Z * t j (ns - 1 - n)%Z else w n * t j n + w (3 * ns - 1 - n)%Z * t j (3 * ns - 1 - n)%Z).
  { intros j n Hn. rewrite Ens in *. apply imdct_alias; lia. }
  assert (W0 : forall n, (ns + nd <= n)%Z -> w n = 0) by (intros n Hn; apply (w_null dt sr Hc n); exact Hn).
  unfold ov, syn. fold ns nd w.
  replace (i * ns + q - (2 * nd - ns))%Z with (i * ns - nd + (ns - nd + q))%Z by lia. fold (t i (ns - nd + q)%Z). destruct (q <? nd)%Z eqn:C; rewrite !IM by lia.
  - replace (ns - nd + q <? ns)%Z with true by lia. replace (2 * ns - nd + q <? ns)%Z with false by lia. rewrite (Z.mod_small (ns - nd + q)) by lia. unfold window_gain.
    assert (A1 : t (i - 1) (2 * ns - nd + q)%Z = t i (ns - nd + q)%Z) by (unfold t; f_equal; ring).
    assert (A2 : t (i - 1) (3 * ns - 1 - (2 * ns - nd + q))%Z = t i (ns - 1 - (ns - nd + q))%Z) by (unfold t; f_equal; ring). rewrite A1, A2.
    replace (3 * ns - 1 - (2 * ns - nd + q))%Z with (2 * ns - 1 - (ns - nd + q))%Z by lia.
    replace (2 * ns - 1 - (2 * ns - nd + q))%Z with (ns - 1 - (ns - nd + q))%Z by lia. replace (2 * ns - nd + q)%Z with (ns + (ns - nd + q))%Z by lia. ring.
  - replace (ns - nd + q <? ns)%Z with false by lia. rewrite (W0 (3 * ns - 1 - (ns - nd + q))%Z) by lia.
    assert (A1 : ((ns - nd + q) mod ns = q - nd)%Z) by (replace (ns - nd + q)%Z with (q - nd + 1 * ns)%Z by ring; rewrite Z.mod_add, Z.mod_small by lia; reflexivity). rewrite A1. unfold window_gain.
    rewrite (W0 (2 * ns - 1 - (q - nd))%Z) by lia. replace (ns + (q - nd))%Z with (ns - nd + q)%Z by lia.
    replace (ns - 1 - (q - nd))%Z with (2 * ns - 1 - (ns - nd + q))%Z by lia. ring.
Qed.

Lemma fchain_ok frames : forall i de dd,
  (forall j x, nth_error frames j = Some x -> zlen x = ns /\ Forall fin x /\ forall q, (0 <= q < ns)%Z -> val (at_ f0 x q) = S ((i + Z.of_nat j) * ns + q)%Z) ->
  zlen de = nd -> zlen dd = nd -> Forall fin de -> Forall fin dd ->
  (forall q, (0 <= q < nd)%Z -> val (at_ f0 de q) = S (i * ns - nd + q)%Z) ->
  norm nd (fun q => val (at_ f0 dd q) - ov i q) <= 700 * ru * (V (i - 1) + tiny3) ->
  exists os, chain_with FFT junk dt sr ybuf frames de dd = Some os /\ length os = length frames /\
    forall j o, nth_error os j = Some o -> zlen o = zlen ybuf /\ (forall q, (0 <= q < ns)%Z -> fin (at_ f0 o q)) /\
      norm ns (fun q => val (at_ f0 o q) - S ((i + Z.of_nat j) * ns + q - (2 * nd - ns))%Z) <= 2048 * ru * (around (i + Z.of_nat j) + tiny3).
Proof.
  destruct (cfg_ok dt sr Hc) as (Q & HQ & _ & _ & _ & Ens & _ & Hnd & _ & HM). fold ns nd in Ens, HM, Hnd. unfold MAX_NS in HM.
  induction frames as [|x r IH]; intros i de dd Hf Le Ld Fe Fd He Hd; cbn [chain_with].
  { exists []. split; [reflexivity|]. split; [reflexivity|]. intros [|j] o H; discriminate H. }
  destruct (Hf 0%nat x eq_refl) as (Lx & Fx & Vx). rewrite Z.add_0_r in Vx.
  pose proof ru_b as U. destruct tiny3_b as (_ & _ & _ & _ & T1). assert (T0 : 0 < tiny3) by apply bpow_gt_0. assert (V0 : forall j, 0 <= V j) by (intros; apply norm_pos).
  assert (B4050 : p2 40 * 1024 = p2 50) by (change 50%Z with (40 + 10)%Z; rewrite (bpow_plus radix2 40 10); reflexivity). assert (B5060 : p2 50 <= p2 60) by (apply bpow_le; lia). assert (B0 : 1 <= p2 40) by (change 1 with (p2 0); apply bpow_le; lia).
  assert (NO : norm nd (ov i) <= 2131 / 1000 * V (i - 1)).
  { eapply Rle_trans; [apply (syn_norm dt sr Hc); fold ns; lia|]. fold ns. assert (norm ns (mdct ns w (t (i - 1))) <= 1415 / 1000 * V (i - 1)) by (unfold V; rewrite Ens; apply mdct_norm; lia). pose proof (V0 (i - 1)%Z). lra. }
  assert (ND : norm nd (fun q => val (at_ f0 dd q)) <= 214 / 100 * (V (i - 1) + tiny3)).
  { eapply Rle_trans; [apply (norm_le_sub nd _ (ov i))|]. pose proof (V0 (i - 1)%Z). assert (700 * ru * (V (i - 1) + tiny3) <= / 1000 * (V (i - 1) + tiny3)) by (apply Rmult_le_compat_r; lra). lra. }
  destruct (frame_err dt sr Hc FFT junk HF x de dd ybuf (t i) Lx Le Ld Ly Fx Fe Fd) as (de' & X & dd' & o & E1 & E2 & V1 & L2 & L2' & F2 & F2' & B2 & B2').
  { intros n Hn. fold ns nd in Hn. unfold at_, t. unfold zlen in *. destruct (Z_lt_le_dec n nd) as [L|L].
    - rewrite app_nth1 by lia. apply He. lia.
    - rewrite app_nth2 by lia. replace (Z.to_nat n - length de)%nat with (Z.to_nat (n - nd)) by lia. specialize (Vx (n - nd)%Z ltac:(lia)). unfold at_ in Vx. rewrite Vx. f_equal. ring. }
  { fold ns. change (V i <= p2 50). pose proof (V_max i). lra. }
  { fold nd. pose proof (V_max (i - 1)). lra. }
  fold ns nd w in B2, B2', V1, L2, F2'. change (norm (2 * ns) (fun n => w n * t i n)) with (V i) in B2, B2'. rewrite E1. cbn [bind fst snd]. rewrite E2. cbn [bind fst snd].
  destruct (IH (i + 1)%Z de' dd') as (os & E3 & L3 & V3).
  - intros j x' Hx'. destruct (Hf (Datatypes.S j) x' Hx') as (Lx' & Fx' & Vx'). split; [exact Lx'|]. split; [exact Fx'|]. intros q Hq. rewrite Vx' by exact Hq. f_equal. lia.
  - rewrite V1. unfold zlen in *. rewrite skipn_length. lia.
  - exact L2.
  - rewrite V1. apply Forall_forall. intros v Hv. rewrite Forall_forall in Fx. apply Fx. rewrite <- (firstn_skipn (Z.to_nat (ns - nd)) x). apply in_or_app. right. exact Hv.
  - exact F2.
  - intros q Hq. rewrite V1. unfold at_. rewrite nth_skipn'. specialize (Vx (ns - nd + q)%Z ltac:(lia)). unfold at_ in Vx. replace (Z.to_nat (ns - nd) + Z.to_nat q)%nat with (Z.to_nat (ns - nd + q)) by lia. rewrite Vx. f_equal. ring.
  - unfold ov. replace (i + 1 - 1)%Z with i by ring. exact B2.
  - rewrite E3. cbn [bind]. exists (o :: os). split; [reflexivity|]. split; [cbn [length]; rewrite L3; reflexivity|].
    intros [|j] o' Ho; cbn [nth_error] in Ho.
    + injection Ho as <-. split; [exact L2'|]. split; [exact F2'|]. rewrite Z.add_0_r. set (s := fun q => S (i * ns + q - (2 * nd - ns))%Z). set (g := fun q => window_gain ns w ((ns - nd + q) mod ns)).
      set (D := fun q => if (q <? nd)%Z then val (at_ f0 dd q) else 0) in *. set (e1 := fun q => val (at_ f0 o q) - (D q + syn dt sr (mdct ns w (t i)) (ns - nd + q)%Z)).
      change (norm ns e1 <= 700 * ru * (V i + tiny3) + 4 * ru * norm nd (fun q => val (at_ f0 dd q))) in B2'.
      assert (Ns : norm ns s <= around i).
      { unfold around. rewrite (norm_ext ns s (fun q => (fun n => S ((i - 2) * ns + n)%Z) (3 * ns - 2 * nd + q)%Z)) by (intros q _; unfold s; f_equal; ring). apply (norm_seg (3 * ns) (3 * ns - 2 * nd) (ns) (fun n => S ((i - 2) * ns + n)%Z)); lia. }
      assert (Ng : norm ns (fun q => (g q - 1) * s q) <= 2 * ru * norm ns s).
      { rewrite <- (norm_abs ns s), <- norm_scal by lra. apply norm_mono. intros q Hq. rewrite Rabs_mult. apply Rmult_le_compat_r; [apply Rabs_pos|].
        pose proof (code_gain dt sr ((ns - nd + q) mod ns) Hc ltac:(apply Z.mod_pos_bound; fold ns; lia)) as G. fold ns in G. replace (2 * ru) with (/ IZR (2 ^ 23)) by (rewrite ru_eq, (pow_IZR 2 24); change (2 ^ Z.of_nat 24)%Z with (2 * 2 ^ 23)%Z; rewrite mult_IZR; field; apply IZR_neq; discriminate). exact G. }
      assert (Nd : norm ns (fun q => if (q <? nd)%Z then val (at_ f0 dd q) - ov i q else 0) <= 700 * ru * (V (i - 1) + tiny3)) by (rewrite (norm_trim nd ns (fun q => val (at_ f0 dd q) - ov i q)) by lia; exact Hd).
      eapply Rle_trans; [apply Req_le, (norm_ext ns _ (fun q => (fun q => e1 q + (if (q <? nd)%Z then val (at_ f0 dd q) - ov i q else 0)) q + (g q - 1) * s q))|].
      { intros q Hq. cbv beta. pose proof (tdac i q Hq) as TD. change (S (i * ns + q - (2 * nd - ns))%Z) with (s q) in *. change (window_gain ns w ((ns - nd + q) mod ns)) with (g q) in TD. unfold e1, D. destruct (q <? nd)%Z; lra. }
      eapply Rle_trans; [apply norm_add|]. pose proof (norm_add ns e1 (fun q => if (q <? nd)%Z then val (at_ f0 dd q) - ov i q else 0)) as A.
      destruct (V_around i) as (A1 & A2). assert (0 <= around i) by apply norm_pos.
      assert (R1 : ru * V i <= ru * (1064 / 1000 * around i)) by (apply Rmult_le_compat_l; lra). assert (R2 : ru * V (i - 1) <= ru * (1064 / 1000 * around i)) by (apply Rmult_le_compat_l; lra).
      assert (R3 : ru * norm ns s <= ru * around i) by (apply Rmult_le_compat_l; lra). assert (R4 : ru * norm nd (fun q => val (at_ f0 dd q)) <= ru * (214 / 100 * (V (i - 1) + tiny3))) by (apply Rmult_le_compat_l; lra).
      assert (R5 : 0 <= ru * tiny3) by (apply Rmult_le_pos; lra). assert (R6 : 0 <= ru * around i) by (apply Rmult_le_pos; lra). lra.
    + destruct (V3 j o' Ho) as (Lo & Fo & Vo). split; [exact Lo|]. split; [exact Fo|]. replace (i + Z.of_nat (Datatypes.S j))%Z with (i + 1 + Z.of_nat j)%Z by lia. exact Vo.
Qed.
End Stream.
