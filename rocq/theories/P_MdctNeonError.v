(** * C52: accuracy of the NEON transforms in binary32 *)
From Coq Require Import Reals ZArith List Bool Lia Lra ZifyBool.
From Flocq Require Import Core.Core IEEE754.BinarySingleNaN.
From Verif Require Import Base BaseProofs FloatLaws FloatOps F32Model F32Proofs SpecEncFloat ConfigModel MdctModel MdctTables MdctProofs MdctFft MdctSpec MdctErrSpec MdctMath MdctExact MdctStream MdctWindows MdctFloat SynthModel EncModel
  ErrNorm ErrF32 MdctErr MdctTabErr MdctErrTrans MdctErrInv MdctErrFwd MdctErrCode MdctErrStream MdctErrRate MdctErrAny MdctNeonF32Model MdctNeonErrCode.
Import ListNotations.
Local Open Scope R_scope.

(** The transforms of the encoder and of the decoder built for AArch64, whose FFT has other
    operations, in another order, and fuses multiplications and additions: the same accuracy as
    the portable transforms, for every configuration, every rate of the spectrum up to that of
    the samples and any finite samples of norm at most 2^60. *)
Theorem C52_neon_forward nan junk dt srp sr x d y :
  has_transform dt srp -> (0 <= sr <= srp)%Z -> zlen x = c_ns dt srp -> zlen d = c_nd dt srp -> (c_ns dt srp <= zlen y)%Z -> Forall finite x -> Forall finite d ->
  let ns := c_ns dt srp in let nd := c_nd dt srp in let kept := c_ns dt sr in let c := sqrt (IZR kept / IZR ns) in
  let w := rat (code_win win_value dt srp) in let t := number (d ++ x) in
  let size := norm (2 * ns) (fun n => w n * t n) in
  size <= 2 ^ 60 ->
  exists d' y', neon_forward nan junk dt srp sr x d y = Some (d', y') /\ zlen y' = zlen y /\ d' = skipn (Z.to_nat (ns - nd)) x /\
    Forall finite (firstn (Z.to_nat kept) y') /\
    norm kept (fun k => number y' k - c * mdct ns w t k) <= / 2 ^ 16 * (c * size + / 2 ^ 70).
Proof. exact (forward_any fft_neon junk fft_neon_ok dt srp sr x d y). Qed.
Theorem C52_neon_inverse nan junk dt srp sr src d y :
  has_transform dt srp -> (0 <= sr <= srp)%Z -> (c_ns dt srp <= zlen (inp src y))%Z -> zlen d = c_nd dt srp -> (c_ns dt srp <= zlen y)%Z ->
  Forall finite (firstn (Z.to_nat (c_ns dt srp)) (inp src y)) -> Forall finite d ->
  let ns := c_ns dt srp in let nd := c_nd dt srp in let c := sqrt (IZR ns / IZR (c_ns dt sr)) in let w := rat (code_win win_value dt srp) in
  let X := number (inp src y) in let D := number d in
  let v n := w (2 * ns - 1 - n)%Z * (c * imdct ns X n) in
  norm ns X <= 2 ^ 60 -> norm nd D <= 2 ^ 60 ->
  exists d' y', neon_inverse nan junk dt srp sr src d y = Some (d', y') /\ zlen d' = zlen d /\ zlen y' = zlen y /\
    Forall finite d' /\ Forall finite (firstn (Z.to_nat ns) y') /\
    norm nd (fun q => number d' q - v (2 * ns - nd + q)%Z) <= / 2 ^ 16 * (c * norm ns X + / 2 ^ 70) /\
    norm ns (fun q => number y' q - ((if (q <? nd)%Z then D q else 0) + v (ns - nd + q)%Z)) <= / 2 ^ 16 * (c * norm ns X + / 2 ^ 70) + / 2 ^ 22 * norm nd D.
Proof. exact (inverse_any fft_neon junk fft_neon_ok dt srp sr src d y). Qed.

(** A stream through both transforms, as [C52_stream]. *)
Theorem C52_neon_stream nan junk dt sr ybuf frames :
  has_transform dt sr -> (c_ns dt sr <= zlen ybuf)%Z ->
  (forall x, In x frames -> zlen x = c_ns dt sr /\ forall v, In v x -> finite v /\ Rabs (B2R v) <= 2 ^ 31) ->
  let ns := c_ns dt sr in let nd := c_nd dt sr in let zero := repeat (B754_zero false) (Z.to_nat nd) in
  let s := samples ns (map (map B2R) frames) in
  exists os, neon_chain nan junk dt sr ybuf frames zero zero = Some os /\ length os = length frames /\
  forall j o, nth_error os j = Some o ->
    Forall finite (firstn (Z.to_nat ns) o) /\
    norm ns (fun q => number o q - s (Z.of_nat j * ns + q - (2 * nd - ns))%Z) <=
      / 2 ^ 13 * (norm (3 * ns) (fun n => s ((Z.of_nat j - 2) * ns + n)%Z) + / 2 ^ 70).
Proof. intros Hc Ly Hf ns nd zero s. rewrite neon_chain_with. exact (stream_any fft_neon junk fft_neon_ok dt sr ybuf frames Hc Ly Hf). Qed.

(** Two builds: the coefficients of a frame, and the samples of a spectrum, are not the same
    floats on the two ([C51_bits_refuted]), but they are within 2^-15 of the size of the
    frame (90 dB), and the delayed samples of the encoder are the same. *)
Lemma norm_two n f g h : norm n (fun k => f k - g k) <= norm n (fun k => f k - h k) + norm n (fun k => g k - h k).
Proof.
  rewrite <- (norm_opp n (fun k => g k - h k)). eapply Rle_trans; [|apply norm_add]. apply Req_le, norm_ext. intros k _. ring.
Qed.
Theorem C52_builds_forward nan junk dt srp sr x d y :
  has_transform dt srp -> (0 <= sr <= srp)%Z -> zlen x = c_ns dt srp -> zlen d = c_nd dt srp -> (c_ns dt srp <= zlen y)%Z -> Forall finite x -> Forall finite d ->
  let ns := c_ns dt srp in let kept := c_ns dt sr in let c := sqrt (IZR kept / IZR ns) in
  let size := norm (2 * ns) (fun n => rat (code_win win_value dt srp) n * number (d ++ x) n) in
  size <= 2 ^ 60 ->
  exists d' y1 y2, forward nan junk dt srp sr x d y = Some (d', y1) /\ neon_forward nan junk dt srp sr x d y = Some (d', y2) /\
    norm kept (fun k => number y1 k - number y2 k) <= / 2 ^ 15 * (c * size + / 2 ^ 70).
Proof.
  intros Hc Hs Lx Ld Ly Fx Fd ns kept c size HV.
  destruct (forward_any fft_c junk fft_c_ok dt srp sr x d y Hc Hs Lx Ld Ly Fx Fd HV) as (d1 & y1 & E1 & _ & D1 & _ & B1).
  destruct (forward_any fft_neon junk fft_neon_ok dt srp sr x d y Hc Hs Lx Ld Ly Fx Fd HV) as (d2 & y2 & E2 & _ & D2 & _ & B2).
  exists d1, y1, y2. split; [rewrite (forward_fwd nan); exact E1|]. split; [rewrite (neon_forward_fwd nan), E2, D1, D2; reflexivity|].
  eapply Rle_trans; [apply (norm_two kept (number y1) (number y2) (fun k => c * mdct ns (rat (code_win win_value dt srp)) (number (d ++ x)) k))|].
  assert (K : / 2 ^ 15 = 2 * / 2 ^ 16) by field. rewrite K. fold ns kept c size in B1, B2. lra.
Qed.
Theorem C52_builds_inverse nan junk dt srp sr src d y :
  has_transform dt srp -> (0 <= sr <= srp)%Z -> (c_ns dt srp <= zlen (inp src y))%Z -> zlen d = c_nd dt srp -> (c_ns dt srp <= zlen y)%Z ->
  Forall finite (firstn (Z.to_nat (c_ns dt srp)) (inp src y)) -> Forall finite d ->
  let ns := c_ns dt srp in let nd := c_nd dt srp in let c := sqrt (IZR ns / IZR (c_ns dt sr)) in
  let X := number (inp src y) in let D := number d in
  norm ns X <= 2 ^ 60 -> norm nd D <= 2 ^ 60 ->
  exists d1 y1 d2 y2, inverse (f32_ops nan) junk dt srp sr src d y = Some (d1, y1) /\ neon_inverse nan junk dt srp sr src d y = Some (d2, y2) /\
    norm nd (fun q => number d1 q - number d2 q) <= / 2 ^ 15 * (c * norm ns X + / 2 ^ 70) /\
    norm ns (fun q => number y1 q - number y2 q) <= / 2 ^ 15 * (c * norm ns X + / 2 ^ 70) + / 2 ^ 21 * norm nd D.
Proof.
  intros Hc Hs Lx Ld Ly Fx Fd ns nd c X D HX HD.
  destruct (inverse_any fft_c junk fft_c_ok dt srp sr src d y Hc Hs Lx Ld Ly Fx Fd HX HD) as (d1 & y1 & E1 & _ & _ & _ & _ & A1 & B1).
  destruct (inverse_any fft_neon junk fft_neon_ok dt srp sr src d y Hc Hs Lx Ld Ly Fx Fd HX HD) as (d2 & y2 & E2 & _ & _ & _ & _ & A2 & B2).
  exists d1, y1, d2, y2. split; [rewrite (inverse_inv nan); exact E1|]. split; [rewrite (neon_inverse_inv nan); exact E2|].
  set (v := fun n => rat (code_win win_value dt srp) (2 * ns - 1 - n)%Z * (c * imdct ns X n)).
  assert (K : / 2 ^ 15 = 2 * / 2 ^ 16) by field. assert (K2 : / 2 ^ 21 = 2 * / 2 ^ 22) by field. rewrite K, K2. fold ns nd X D c in A1, B1, A2, B2. split.
  - eapply Rle_trans; [apply (norm_two nd (number d1) (number d2) (fun q => v (2 * ns - nd + q)%Z))|]. unfold v. lra.
  - eapply Rle_trans; [apply (norm_two ns (number y1) (number y2) (fun q => (if (q <? nd)%Z then D q else 0) + v (ns - nd + q)%Z))|]. unfold v. lra.
Qed.

(** 10 ms at 16 kHz, a frame of ones: the hypotheses of both directions are met. *)
Example C52_neon_example : let one := f32_dy 1 0 in let x := repeat one 160 in let d := repeat one 100 in
  has_transform 3 1 /\ (0 <= 0 <= 1)%Z /\ zlen x = c_ns 3 1 /\ zlen d = c_nd 3 1 /\ Forall finite (d ++ x) /\ number (d ++ x) 5 = 1 /\
  norm 160 (number x) <= 2 ^ 60 /\ norm 100 (number d) <= 2 ^ 60 /\ norm 320 (fun n => rat (code_win win_value 3 1) n * number (d ++ x) n) <= 2 ^ 60.
Proof.
  intros one x d. assert (Hc : has_transform 3 1) by (unfold has_transform, DT_7M5; lia).
  assert (F1 : is_finite one = true /\ B2R one = 1) by (destruct (dy_exactz 1 0 eq_refl ltac:(lia) ltac:(lia)) as (F & E); split; [exact F|eapply eq_trans; [exact E|]; change (p2 (- (0))) with 1; lra]).
  assert (A : forall v, In v (d ++ x) -> v = one) by (intros v Hv; apply in_app_or in Hv; destruct Hv as [Hv|Hv]; apply repeat_spec in Hv; exact Hv).
  assert (N : forall l n, (forall v, In v l -> v = one) -> Rabs (number l n) <= 1).
  { intros l n Hl. unfold number. destruct (nth_in_or_default (Z.to_nat n) l (B754_zero false)) as [I|E].
    - rewrite (Hl _ I). destruct F1 as (_ & ->). rewrite Rabs_R1. lra.
    - rewrite E. cbn [B2R]. rewrite Rabs_R0. lra. }
  assert (M : forall m f, (0 <= m <= 320)%Z -> (forall n, (0 <= n)%Z -> Rabs (f n) <= 2) -> norm m f <= 2 ^ 60).
  { intros m f Hm Hf. eapply Rle_trans; [apply (norm_mono _ _ (fun _ => 2)); intros n Hn; apply Hf; lia|]. eapply Rle_trans; [apply norm_const; [lia|lra]|].
    assert (sqrt (IZR m) <= 32) by (apply sqrt_le_sq; [lra|]; rewrite <- mult_IZR; apply IZR_le; lia). eapply Rle_trans; [|apply (Rle_pow 2 6 60); [lra|lia]]. lra. }
  split; [exact Hc|]. split; [lia|]. do 2 (split; [reflexivity|]). split; [apply Forall_forall; intros v Hv; rewrite (A v Hv); apply F1|]. split; [apply F1|]. repeat split; apply M; try lia; intros n Hn.
  - eapply Rle_trans; [apply N|lra]. intros v Hv. apply A, in_or_app. right. exact Hv.
  - eapply Rle_trans; [apply N|lra]. intros v Hv. apply A, in_or_app. left. exact Hv.
  - rewrite Rabs_mult. destruct (win_at 3 1 n Hc Hn) as ((_ & B) & E). rewrite E in B. change (the_win 3 1 n) with (rat (code_win win_value 3 1) n) in B.
    apply Rle_trans with (1064 / 1000 * 1); [|lra]. apply Rmult_le_compat; try apply Rabs_pos; [exact B|apply N, A].
Qed.
Print Assumptions C52_neon_forward.
Print Assumptions C52_neon_inverse.
Print Assumptions C52_neon_stream.
Print Assumptions C52_builds_forward.
Print Assumptions C52_builds_inverse.
