(** * Accuracy of the transforms of the code, on any FFT with bounded errors *)
From Coq Require Import Reals ZArith List Bool Lia Lra ZifyBool.
From Flocq Require Import Core.Core IEEE754.BinarySingleNaN.
From Verif Require Import Base BaseProofs FloatLaws FloatOps F32Model F32Proofs SpecEncFloat ConfigModel MdctModel MdctTables MdctProofs MdctFft MdctSpec MdctErrSpec MdctMath MdctExact MdctStream MdctWindows MdctFloat SynthModel EncModel
  ErrNorm ErrF32 MdctErr MdctTabErr MdctErrTrans MdctErrInv MdctErrFwd MdctErrCode MdctErrDct MdctErrStream MdctErrRate.
Import ListNotations.
Local Open Scope R_scope.

Lemma first_all (l : list f32) n : (n <= zlen l)%Z -> (forall q, (0 <= q < n)%Z -> fin (at_ f0 l q)) <-> Forall finite (firstn (Z.to_nat n) l).
Proof.
  intros L. unfold zlen in L. split.
  - intros H. apply Forall_forall. intros v Hv. destruct (In_nth _ v f0 Hv) as (i & Hi & <-). rewrite firstn_length in Hi. rewrite FrontRun.nth_firstn' by lia. specialize (H (Z.of_nat i)). unfold at_ in H. rewrite Nat2Z.id in H. apply H. lia.
  - intros H q Hq. rewrite Forall_forall in H. apply H. unfold at_. rewrite <- (FrontRun.nth_firstn' l (Z.to_nat n)) by lia. apply nth_In. rewrite firstn_length. lia.
Qed.

Section Any.
Variables (FFT : Z -> list f32 -> list f32 -> option (bool * (list f32 * list f32))) (junk : f32).
Hypothesis HF : forall dt sr, has_transform dt sr -> fft_bound FFT (c_ns dt sr / 2).
Lemma forward_any dt srp sr x d y :
  has_transform dt srp -> (0 <= sr <= srp)%Z -> zlen x = c_ns dt srp -> zlen d = c_nd dt srp -> (c_ns dt srp <= zlen y)%Z -> Forall finite x -> Forall finite d ->
  let ns := c_ns dt srp in let nd := c_nd dt srp in let kept := c_ns dt sr in let c := sqrt (IZR kept / IZR ns) in
  let w := rat (code_win win_value dt srp) in let t := number (d ++ x) in
  let size := norm (2 * ns) (fun n => w n * t n) in
  size <= 2 ^ 60 ->
  exists d' y', fwd FFT junk dt srp sr x d y = Some (d', y') /\ zlen y' = zlen y /\ d' = skipn (Z.to_nat (ns - nd)) x /\
    Forall finite (firstn (Z.to_nat kept) y') /\
    norm kept (fun k => number y' k - c * mdct ns w t k) <= / 2 ^ 16 * (c * size + / 2 ^ 70).
Proof.
  intros Hc Hs Lx Ld Ly Fx Fd ns nd kept c w t size HV.
  destruct (forward_rate FFT junk HF dt srp sr x d y Hc Hs Lx Ld Ly Fx Fd) as (d' & y' & E & L & V & F & B).
  { replace (p2 60) with (2 ^ 60) by (rewrite (pow_IZR 2 60); reflexivity). exact HV. }
  destruct (rates_ok dt sr srp Hc Hs) as (_ & R1 & _).
  exists d', y'. split; [exact E|]. split; [exact L|]. split; [exact V|]. split.
  - apply first_all; [rewrite L; unfold kept; lia|exact F].
  - rewrite <- ru_16. assert (Et : tiny3 = / 2 ^ 70) by (unfold tiny3; rewrite (pow_IZR 2 70); reflexivity). rewrite <- Et.
    eapply Rle_trans; [exact B|]. apply Rmult_le_compat_r; [|pose proof ru_b; lra]. assert (0 <= c * size) by (apply Rmult_le_pos; [apply sqrt_pos|apply norm_pos]). assert (0 <= tiny3) by apply bpow_ge_0. change (the_win dt srp) with w. fold t ns kept c size. lra.
Qed.

Lemma inverse_any dt srp sr src d y :
  has_transform dt srp -> (0 <= sr <= srp)%Z -> (c_ns dt srp <= zlen (inp src y))%Z -> zlen d = c_nd dt srp -> (c_ns dt srp <= zlen y)%Z ->
  Forall finite (firstn (Z.to_nat (c_ns dt srp)) (inp src y)) -> Forall finite d ->
  let ns := c_ns dt srp in let nd := c_nd dt srp in let c := sqrt (IZR ns / IZR (c_ns dt sr)) in let w := rat (code_win win_value dt srp) in
  let X := number (inp src y) in let D := number d in
  let v n := w (2 * ns - 1 - n)%Z * (c * imdct ns X n) in
  norm ns X <= 2 ^ 60 -> norm nd D <= 2 ^ 60 ->
  exists d' y', inv FFT junk dt srp sr src d y = Some (d', y') /\ zlen d' = zlen d /\ zlen y' = zlen y /\
    Forall finite d' /\ Forall finite (firstn (Z.to_nat ns) y') /\
    norm nd (fun q => number d' q - v (2 * ns - nd + q)%Z) <= / 2 ^ 16 * (c * norm ns X + / 2 ^ 70) /\
    norm ns (fun q => number y' q - ((if (q <? nd)%Z then D q else 0) + v (ns - nd + q)%Z)) <= / 2 ^ 16 * (c * norm ns X + / 2 ^ 70) + / 2 ^ 22 * norm nd D.
Proof.
  intros Hc Hs Lx Ld Ly Fx Fd ns nd c w X D v HX HD. assert (P60 : p2 60 = 2 ^ 60) by (rewrite (pow_IZR 2 60); reflexivity).
  destruct (inverse_rate FFT junk HF dt srp sr src d y Hc Hs Lx Ld Ly) as (d' & y' & E & L1 & L2 & F1 & F2 & B1 & B2); try assumption.
  { apply first_all; assumption. }
  { rewrite P60. exact HX. }
  { rewrite P60. exact HD. }
  exists d', y'. split; [exact E|]. split; [exact L1|]. split; [exact L2|]. split; [exact F1|]. split.
  - apply first_all; [rewrite L2; exact Ly|exact F2].
  - rewrite <- ru_16. assert (Et : tiny3 = / 2 ^ 70) by (unfold tiny3; rewrite (pow_IZR 2 70); reflexivity). rewrite <- Et.
    assert (R4 : / 2 ^ 22 = 4 * ru) by (rewrite ru_eq; field). rewrite R4. split; [exact B1|exact B2].
Qed.

Lemma stream_any dt sr ybuf frames :
  has_transform dt sr -> (c_ns dt sr <= zlen ybuf)%Z ->
  (forall x, In x frames -> zlen x = c_ns dt sr /\ forall v, In v x -> finite v /\ Rabs (B2R v) <= 2 ^ 31) ->
  let ns := c_ns dt sr in let nd := c_nd dt sr in let zero := repeat (B754_zero false) (Z.to_nat nd) in
  let s := samples ns (map (map B2R) frames) in
  exists os, chain_with FFT junk dt sr ybuf frames zero zero = Some os /\ length os = length frames /\
  forall j o, nth_error os j = Some o ->
    Forall finite (firstn (Z.to_nat ns) o) /\
    norm ns (fun q => number o q - s (Z.of_nat j * ns + q - (2 * nd - ns))%Z) <=
      / 2 ^ 13 * (norm (3 * ns) (fun n => s ((Z.of_nat j - 2) * ns + n)%Z) + / 2 ^ 70).
Proof.
  intros Hc Ly Hf ns nd zero s. destruct (cfg_ok dt sr Hc) as (Q & HQ & _ & _ & _ & Ens & _ & Hnd & _ & HM). fold ns nd in Ens, HM, Hnd.
  assert (LZ : zlen zero = nd) by (unfold zlen, zero; rewrite repeat_length; lia).
  assert (FZ : Forall fin zero) by (apply Forall_forall; intros v Hv; apply repeat_spec in Hv; rewrite Hv; reflexivity).
  assert (VZ : forall q, val (at_ f0 zero q) = 0).
  { intros q. destruct (nth_in_or_default (Z.to_nat q) zero f0) as [I|E]; [apply repeat_spec in I; exact (f_equal B2R I)|exact (f_equal B2R E)]. }
  assert (HS : forall p, Rabs (s p) <= 2 ^ 31).
  { intros p. assert (Z0 : Rabs 0 <= 2 ^ 31) by (rewrite Rabs_R0; apply pow_le; lra). unfold s, samples. destruct (p <? 0)%Z; [exact Z0|].
    destruct (nth_in_or_default (Z.to_nat (p mod ns)) (nth (Z.to_nat (p / ns)) (map (map B2R) frames) []) 0) as [I|E]; [|rewrite E; exact Z0].
    destruct (nth_in_or_default (Z.to_nat (p / ns)) (map (map B2R) frames) []) as [J|E]; [|rewrite E in I; destruct I].
    set (l := nth (Z.to_nat (p / ns)) (map (map B2R) frames) []) in *. apply in_map_iff in J. destruct J as (x & Ex & Ix). clearbody l. subst l. apply in_map_iff in I. destruct I as (v & Ev & Iv). rewrite <- Ev. apply (Hf x Ix). exact Iv. }
  destruct (fchain_ok FFT junk dt sr ybuf s HF Hc Ly HS frames 0 zero zero) as (os & E & L & V); fold ns nd; try assumption.
  - intros j x Hx. destruct (Hf x (nth_error_In _ _ Hx)) as (Lx & Fx). split; [exact Lx|]. split; [apply Forall_forall; intros v Hv; apply (Fx v Hv)|]. intros q Hq. unfold s, samples.
    replace ((0 + Z.of_nat j) * ns + q)%Z with (q + Z.of_nat j * ns)%Z by ring. assert (0 <= Z.of_nat j * ns)%Z by (apply Z.mul_nonneg_nonneg; lia).
    replace (q + Z.of_nat j * ns <? 0)%Z with false by lia. rewrite Z.mod_add, Z.mod_small, Z.div_add, Z.div_small, Z.add_0_l, Nat2Z.id by lia.
    rewrite (nth_error_nth _ _ _ (map_nth_error (map B2R) j frames Hx)). symmetry. exact (map_nth B2R x f0 (Z.to_nat q)).
  - intros q Hq. rewrite VZ. unfold s, samples. replace (0 * ns - nd + q <? 0)%Z with true by lia. reflexivity.
  - assert (W0 : forall n, the_win dt sr n * s ((0 - 1) * ns - nd + n)%Z = 0).
    { intros n. destruct (Z_lt_le_dec n (ns + nd)) as [C|C].
      - unfold s, samples. replace ((0 - 1) * ns - nd + n <? 0)%Z with true by lia. ring.
      - rewrite (w_null dt sr Hc) by exact C. ring. }
    assert (M0 : forall k, mdct ns (the_win dt sr) (fun n => s ((0 - 1) * ns - nd + n)%Z) k = 0).
    { intros k. unfold mdct. rewrite (sum_ext _ _ (fun _ => 0)) by (intros n _; rewrite W0; ring). unfold sum. rewrite sum_to_zero. ring. }
    rewrite (norm_ext nd _ (fun _ => 0)).
    2:{ intros q _. rewrite VZ. unfold syn. fold ns. match goal with |- context [imdct ns ?X ?n] => assert (I0 : imdct ns X n = 0) end.
        { unfold imdct. rewrite (sum_ext _ _ (fun _ => 0)) by (intros k _; rewrite M0; ring). unfold sum. rewrite sum_to_zero. ring. }
        rewrite I0. ring. }
    eapply Rle_trans; [apply norm_const; [lia|lra]|]. rewrite Rmult_0_r. pose proof ru_b. assert (0 < tiny3) by apply bpow_gt_0. pose proof (norm_pos (2 * ns) (fun n => the_win dt sr n * s ((0 - 1) * ns - nd + n)%Z)). apply Rmult_le_pos; lra.
  - exists os. split; [exact E|]. split; [exact L|]. intros j o Ho. destruct (V j o Ho) as (Lo & Fo & Bo). fold ns nd in Fo, Bo. split.
    + apply first_all; [rewrite Lo; exact Ly|exact Fo].
    + assert (Et : tiny3 = / 2 ^ 70) by (unfold tiny3; rewrite (pow_IZR 2 70); reflexivity). rewrite <- Et. assert (R13 : / 2 ^ 13 = 2048 * ru) by (rewrite ru_eq; field). rewrite R13. exact Bo.
Qed.

End Any.
