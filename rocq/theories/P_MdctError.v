(** * C52: accuracy of the transforms in binary32 *)
From Coq Require Import Reals ZArith List Bool Lia Lra ZifyBool.
From Flocq Require Import Core.Core IEEE754.BinarySingleNaN.
From Verif Require Import Base BaseProofs FloatLaws FloatOps F32Model F32Proofs SpecEncFloat ConfigModel MdctModel MdctTables MdctProofs MdctFft MdctSpec MdctErrSpec MdctMath MdctExact MdctStream MdctWindows MdctFloat SynthModel EncModel
  ErrNorm ErrF32 MdctErr MdctTabErr MdctErrTrans MdctErrInv MdctErrFwd MdctErrCode MdctErrStream MdctErrRate MdctErrAny.
Import ListNotations.
Local Open Scope R_scope.

(** ** Tables
    The twiddle factors of the code, as its floats, are the roots of unity up to 2^-24 each,
    and the rotation factors are [(4 / (2 ns))^(1/4)] times those up to a relative 1.3 * 2^-24. *)
Theorem C52_rotations dt sr k : has_transform dt sr -> (0 <= k < c_ns dt sr / 2)%Z ->
  let ns := c_ns dt sr in let amp := sqrt (sqrt (4 / IZR (2 * ns))) in let a := 2 * PI * (IZR k + 1 / 8) / IZR (2 * ns) in
  let w := znth (r_w (code_rot (fun z => f32_dy z 80) dt sr)) k (B754_zero false, B754_zero false) in
  finite (fst w) /\ finite (snd w) /\
  Rabs (B2R (fst w) - amp * cos a) <= 13 / 10 * amp * / 2 ^ 24 /\ Rabs (B2R (snd w) - amp * sin a) <= 13 / 10 * amp * / 2 ^ 24.
Proof.
  intros Hc Hk ns am a w. destruct (code_near_rot dt sr Hc k Hk) as ((F1 & _ & E1) & (F2 & _ & E2)). rewrite ru_eq in E1, E2. auto.
Qed.
Theorem C52_twiddles dt sr : has_transform dt sr ->
  let T := code_fft (fun z => f32_dy z 80) in let P := (c_ns dt sr / 2)%Z in let a := exp3 P in let b := exp2 P in
  let near (w : f32 * f32) (r : R * R) := finite (fst w) /\ finite (snd w) /\ Rabs (B2R (fst w) - fst r) <= / 2 ^ 24 /\ Rabs (B2R (snd w) - snd r) <= / 2 ^ 24 in
  let root n k := (cos (2 * PI * IZR k / IZR n), - sin (2 * PI * IZR k / IZR n)) in
  let zz := (B754_zero false, B754_zero false) in
  P = (5 * 3 ^ a * 2 ^ b)%Z /\
  (forall j, (0 <= j < a)%Z -> exists tw, rdt (ft_bf3 T) j = Some tw /\ zlen (t_t3 tw) = (3 * (5 * 3 ^ j))%Z /\ forall k, (0 <= k < 3 * (5 * 3 ^ j))%Z ->
     near (fst (znth (t_t3 tw) k (zz, zz))) (root (3 * (5 * 3 ^ j))%Z k) /\ near (snd (znth (t_t3 tw) k (zz, zz))) (root (3 * (5 * 3 ^ j))%Z (2 * k)%Z)) /\
  (forall j, (0 <= j < b)%Z -> exists row tw, rdt (ft_bf2 T) j = Some row /\ rdt row a = Some tw /\ zlen (t_t2 tw) = (5 * 3 ^ a * 2 ^ j)%Z /\ forall k, (0 <= k < 5 * 3 ^ a * 2 ^ j)%Z ->
     near (znth (t_t2 tw) k zz) (root (2 * (5 * 3 ^ a * 2 ^ j))%Z k)).
Proof.
  intros Hc T P a b near root' zz. pose proof (shapes_f32 dt sr Hc) as Hs. unfold shapes in Hs. cbv zeta in Hs. destruct Hs as (S1 & _). destruct (cfg_ok dt sr Hc) as (Q & HQ & Ha & Hb & EP & Ens & Ef & _).
  destruct (code_near_fft _ _ S1) as (_ & N3 & N2). destruct S1 as (S3 & S2). fold P a b in Ef, N3, N2, S3, S2.
  assert (K : forall w n k, ctab 1 (11 / 20) w (root n k) -> near w (root' n k)).
  { intros w n k ((F1 & _ & E1) & (F2 & _ & E2)). unfold near. repeat split; try assumption; rewrite ru_eq in E1, E2.
    - eapply Rle_trans; [exact E1|]. lra.
    - eapply Rle_trans; [exact E2|]. lra. }
  split; [unfold P, a, b in *; unfold fft_size in Ef; lia|]. split.
  - intros j Hj. destruct (S3 j Hj) as (tw & E & _ & L). exists tw. split; [exact E|]. split; [exact L|]. intros k Hk. destruct (N3 j tw Hj E k Hk) as (A1 & A2). split; apply K; assumption.
  - intros j Hj. destruct (S2 j Hj) as (row & tw & Er & E & _ & L). exists row, tw. split; [exact Er|]. split; [exact E|]. split; [exact L|]. intros k Hk. apply K. exact (N2 j row tw Hj Er E k Hk).
Qed.

(** ** Transforms
    For every configuration and any finite samples whose windowed norm is at most 2^60
    (those of any PCM signal are below 2^38), the coefficients computed in binary32 by the
    encoder are those of the MDCT, up to 2^-16 times the norm of the windowed samples, in
    Euclidean norm: 96 dB under the signal. *)
Theorem C52_forward_error nan junk dt sr x d y :
  has_transform dt sr -> zlen x = c_ns dt sr -> zlen d = c_nd dt sr -> (c_ns dt sr <= zlen y)%Z -> Forall finite x -> Forall finite d ->
  let ns := c_ns dt sr in let nd := c_nd dt sr in let w := rat (code_win win_value dt sr) in let t := number (d ++ x) in
  let size := norm (2 * ns) (fun n => w n * t n) in
  size <= 2 ^ 60 ->
  exists d' y', forward nan junk dt sr sr x d y = Some (d', y') /\ zlen y' = zlen y /\ d' = skipn (Z.to_nat (ns - nd)) x /\
    Forall finite (firstn (Z.to_nat ns) y') /\
    norm ns (fun k => number y' k - mdct ns w t k) <= / 2 ^ 16 * (size + / 2 ^ 70).
Proof.
  intros Hc Lx Ld Ly Fx Fd ns nd w t size HV.
  destruct (forward_code fft_c junk fft_c_ok dt sr x d y Hc Lx Ld Ly Fx Fd) as (d' & y' & E & L & V & F & B).
  { replace (p2 60) with (2 ^ 60) by (rewrite (pow_IZR 2 60); reflexivity). exact HV. }
  exists d', y'. split; [exact E|]. split; [exact L|]. split; [exact V|]. split.
  - apply first_all; [rewrite L; exact Ly|exact F].
  - rewrite <- ru_16. assert (Et : tiny3 = / 2 ^ 70) by (unfold tiny3; rewrite (pow_IZR 2 70); reflexivity). rewrite <- Et.
    eapply Rle_trans; [exact B|]. apply Rmult_le_compat_r; [|pose proof ru_b; lra]. pose proof (norm_pos (2 * ns) (fun n => w n * t n)). assert (0 <= tiny3) by apply bpow_ge_0. unfold size. change (the_win dt sr) with w. lra.
Qed.

(** The samples computed by the decoder are those of the IMDCT on the reversed window, added
    to the delayed ones, with the same accuracy. *)
Theorem C52_inverse_error nan junk dt sr src d y :
  has_transform dt sr -> (c_ns dt sr <= zlen (inp src y))%Z -> zlen d = c_nd dt sr -> (c_ns dt sr <= zlen y)%Z ->
  Forall finite (firstn (Z.to_nat (c_ns dt sr)) (inp src y)) -> Forall finite d ->
  let ns := c_ns dt sr in let nd := c_nd dt sr in let w := rat (code_win win_value dt sr) in
  let X := number (inp src y) in let D := number d in
  let v n := w (2 * ns - 1 - n)%Z * imdct ns X n in
  norm ns X <= 2 ^ 60 -> norm nd D <= 2 ^ 60 ->
  exists d' y', inverse (f32_ops nan) junk dt sr sr src d y = Some (d', y') /\ zlen d' = zlen d /\ zlen y' = zlen y /\
    Forall finite d' /\ Forall finite (firstn (Z.to_nat ns) y') /\
    norm nd (fun q => number d' q - v (2 * ns - nd + q)%Z) <= / 2 ^ 16 * (norm ns X + / 2 ^ 70) /\
    norm ns (fun q => number y' q - ((if (q <? nd)%Z then D q else 0) + v (ns - nd + q)%Z)) <= / 2 ^ 16 * (norm ns X + / 2 ^ 70) + / 2 ^ 22 * norm nd D.
Proof.
  intros Hc Lx Ld Ly Fx Fd ns nd w X D v HX HD. assert (P60 : p2 60 = 2 ^ 60) by (rewrite (pow_IZR 2 60); reflexivity).
  destruct (inverse_code fft_c junk fft_c_ok dt sr src d y Hc Lx Ld Ly) as (d' & y' & E & L1 & L2 & F1 & F2 & B1 & B2); try assumption.
  { apply first_all; assumption. }
  { rewrite P60. exact HX. }
  { rewrite P60. exact HD. }
  exists d', y'. split; [exact E|]. split; [exact L1|]. split; [exact L2|]. split; [exact F1|]. split.
  - apply first_all; [rewrite L2; exact Ly|exact F2].
  - rewrite <- ru_16. assert (Et : tiny3 = / 2 ^ 70) by (unfold tiny3; rewrite (pow_IZR 2 70); reflexivity). rewrite <- Et.
    assert (R4 : / 2 ^ 22 = 4 * ru) by (rewrite ru_eq; field). rewrite R4.
    assert (K : 247 * ru * (norm ns X + tiny3) <= 256 * ru * (norm ns X + tiny3)).
    { apply Rmult_le_compat_r; [|pose proof ru_b; lra]. pose proof (norm_pos ns X). assert (0 <= tiny3) by apply bpow_ge_0. lra. }
    split; [eapply Rle_trans; [exact B1|exact K]|]. eapply Rle_trans; [exact B2|]. apply Rplus_le_compat_r. exact K.
Qed.

(** The hypothesis on the size is met by the samples of any PCM signal. *)
Lemma win_le dt sr n : has_transform dt sr -> (0 <= n)%Z -> Rabs (rat (code_win win_value dt sr) n) <= 1064 / 1000.
Proof. intros Hc Hn. destruct (win_at dt sr n Hc Hn) as ((_ & B) & E). rewrite E in B. exact B. Qed.
Theorem C52_pcm_size dt sr t : has_transform dt sr -> (forall n, Rabs (t n) <= 2 ^ 31) ->
  norm (2 * c_ns dt sr) (fun n => rat (code_win win_value dt sr) n * t n) <= 2 ^ 38.
Proof.
  intros Hc Ht. destruct (cfg_ok dt sr Hc) as (Q & HQ & _ & _ & _ & Ens & _ & _ & _ & HM). unfold MAX_NS in HM.
  eapply Rle_trans; [apply (norm_mono _ _ (fun _ => 1064 / 1000 * 2 ^ 31))|].
  - intros n Hn. rewrite Rabs_mult. apply Rmult_le_compat; try apply Rabs_pos; [apply win_le; [exact Hc|lia]|apply Ht].
  - eapply Rle_trans; [apply norm_const; [lia|lra]|].
    assert (S1 : sqrt (IZR (2 * c_ns dt sr)) <= 44).
    { rewrite <- (sqrt_square 44) by lra. apply sqrt_le_1_alt. replace (44 * 44) with 1936 by lra. apply IZR_le. lia. }
    pose proof (sqrt_pos (IZR (2 * c_ns dt sr))). replace (2 ^ 38) with (128 * 2 ^ 31) by (rewrite (pow_add 2 7 31 : 2 ^ 38 = _); lra). nra.
Qed.

(** ** Different sample rates
    The samples are at the rate [srp] and the spectrum at the rate [sr], below or equal: the
    encoder keeps the first coefficients, times the square root of the ratio of the lengths of
    the frames, and the decoder multiplies by the square root of the inverse ratio, with the same
    accuracy. *)
Theorem C52_forward_rates nan junk dt srp sr x d y :
  has_transform dt srp -> (0 <= sr <= srp)%Z -> zlen x = c_ns dt srp -> zlen d = c_nd dt srp -> (c_ns dt srp <= zlen y)%Z -> Forall finite x -> Forall finite d ->
  let ns := c_ns dt srp in let nd := c_nd dt srp in let kept := c_ns dt sr in let c := sqrt (IZR kept / IZR ns) in
  let w := rat (code_win win_value dt srp) in let t := number (d ++ x) in
  let size := norm (2 * ns) (fun n => w n * t n) in
  size <= 2 ^ 60 ->
  exists d' y', forward nan junk dt srp sr x d y = Some (d', y') /\ zlen y' = zlen y /\ d' = skipn (Z.to_nat (ns - nd)) x /\
    Forall finite (firstn (Z.to_nat kept) y') /\
    norm kept (fun k => number y' k - c * mdct ns w t k) <= / 2 ^ 16 * (c * size + / 2 ^ 70).
Proof. exact (forward_any fft_c junk fft_c_ok dt srp sr x d y). Qed.
Theorem C52_inverse_rates nan junk dt srp sr src d y :
  has_transform dt srp -> (0 <= sr <= srp)%Z -> (c_ns dt srp <= zlen (inp src y))%Z -> zlen d = c_nd dt srp -> (c_ns dt srp <= zlen y)%Z ->
  Forall finite (firstn (Z.to_nat (c_ns dt srp)) (inp src y)) -> Forall finite d ->
  let ns := c_ns dt srp in let nd := c_nd dt srp in let c := sqrt (IZR ns / IZR (c_ns dt sr)) in let w := rat (code_win win_value dt srp) in
  let X := number (inp src y) in let D := number d in
  let v n := w (2 * ns - 1 - n)%Z * (c * imdct ns X n) in
  norm ns X <= 2 ^ 60 -> norm nd D <= 2 ^ 60 ->
  exists d' y', inverse (f32_ops nan) junk dt srp sr src d y = Some (d', y') /\ zlen d' = zlen d /\ zlen y' = zlen y /\
    Forall finite d' /\ Forall finite (firstn (Z.to_nat ns) y') /\
    norm nd (fun q => number d' q - v (2 * ns - nd + q)%Z) <= / 2 ^ 16 * (c * norm ns X + / 2 ^ 70) /\
    norm ns (fun q => number y' q - ((if (q <? nd)%Z then D q else 0) + v (ns - nd + q)%Z)) <= / 2 ^ 16 * (c * norm ns X + / 2 ^ 70) + / 2 ^ 22 * norm nd D.
Proof. exact (inverse_any fft_c junk fft_c_ok dt srp sr src d y). Qed.
(** From 48 kHz to 8 kHz: 480 samples, 80 coefficients, and factors below and above 1. *)
Example C52_rates_example : has_transform 3 4 /\ c_ns 3 4 = 480%Z /\ c_ns 3 0 = 80%Z /\ 0 < sqrt (80 / 480) < 1 /\ 2 < sqrt (480 / 80) < 3.
Proof.
  split; [unfold has_transform, DT_7M5; lia|]. do 2 (split; [reflexivity|]). repeat split.
  - apply sqrt_lt_R0. lra.
  - rewrite <- sqrt_1. apply sqrt_lt_1_alt. lra.
  - rewrite <- (sqrt_square 2) by lra. apply sqrt_lt_1_alt. lra.
  - rewrite <- (sqrt_square 3) by lra. apply sqrt_lt_1_alt. lra.
Qed.

(** ** Streams
    [fchain] runs the transform of the encoder on each frame, with the delayed samples it
    keeps, and gives its coefficients to that of the decoder, with its own delayed samples.
    Any finite stream of PCM magnitude comes back, delayed by [2 nd - ns] samples, with an error
    on each frame of at most 2^-13 (78 dB) times the norm of this frame and of the two before. *)
Theorem C52_stream nan junk dt sr ybuf frames :
  has_transform dt sr -> (c_ns dt sr <= zlen ybuf)%Z ->
  (forall x, In x frames -> zlen x = c_ns dt sr /\ forall v, In v x -> finite v /\ Rabs (B2R v) <= 2 ^ 31) ->
  let ns := c_ns dt sr in let nd := c_nd dt sr in let zero := repeat (B754_zero false) (Z.to_nat nd) in
  let s := samples ns (map (map B2R) frames) in
  exists os, fchain nan junk dt sr ybuf frames zero zero = Some os /\ length os = length frames /\
  forall j o, nth_error os j = Some o ->
    Forall finite (firstn (Z.to_nat ns) o) /\
    norm ns (fun q => number o q - s (Z.of_nat j * ns + q - (2 * nd - ns))%Z) <=
      / 2 ^ 13 * (norm (3 * ns) (fun n => s ((Z.of_nat j - 2) * ns + n)%Z) + / 2 ^ 70).
Proof. intros Hc Ly Hf ns nd zero s. rewrite fchain_c. exact (stream_any fft_c junk fft_c_ok dt sr ybuf frames Hc Ly Hf). Qed.

(** 10 ms at 16 kHz: a frame of ones, that meets every hypothesis of the forward transform,
    and a spectrum of ones, that meets those of the inverse one. *)
Example C52_forward_example : let one := f32_dy 1 0 in let x := repeat one 160 in let d := repeat one 100 in
  has_transform 3 1 /\ c_ns 3 1 = 160%Z /\ c_nd 3 1 = 100%Z /\ zlen x = 160%Z /\ zlen d = 100%Z /\ Forall finite (d ++ x) /\ number (d ++ x) 5 = 1 /\
  norm (2 * 160) (fun n => rat (code_win win_value 3 1) n * number (d ++ x) n) <= 2 ^ 60.
Proof.
  intros one x d. assert (Hc : has_transform 3 1) by (unfold has_transform, DT_7M5; lia).
  assert (F1 : is_finite one = true /\ B2R one = 1) by (destruct (dy_exactz 1 0 eq_refl ltac:(lia) ltac:(lia)) as (F & E); split; [exact F|eapply eq_trans; [exact E|]; change (p2 (- (0))) with 1; lra]).
  assert (A : forall v, In v (d ++ x) -> v = one) by (intros v Hv; apply in_app_or in Hv; destruct Hv as [Hv|Hv]; apply repeat_spec in Hv; exact Hv).
  split; [exact Hc|]. do 4 (split; [reflexivity|]). split; [|split].
  - apply Forall_forall. intros v Hv. rewrite (A v Hv). apply F1.
  - apply F1.
  - eapply Rle_trans; [apply (C52_pcm_size 3 1 (number (d ++ x)) Hc)|apply Rle_pow; [lra|lia]].
    intros n. unfold number. destruct (nth_in_or_default (Z.to_nat n) (d ++ x) (B754_zero false)) as [I|E].
    + rewrite (A _ I). destruct F1 as (_ & ->). rewrite Rabs_R1. apply pow_R1_Rle. lra.
    + rewrite E. cbn [B2R]. rewrite Rabs_R0. apply pow_le. lra.
Qed.
(** Two frames of ones: the hypotheses of [C52_stream] are met, and the sample 7 of the second
    frame is the one expected 100 * 2 - 160 samples later. *)
Example C52_stream_example : let one := f32_dy 1 0 in let frames := [repeat one 160; repeat one 160] in
  (forall x, In x frames -> zlen x = c_ns 3 1 /\ forall v, In v x -> finite v /\ Rabs (B2R v) <= 2 ^ 31) /\ samples 160 (map (map B2R) frames) (1 * 160 + 47 - (2 * 100 - 160)) = 1.
Proof.
  intros one frames.
  assert (F1 : is_finite one = true /\ B2R one = 1) by (destruct (dy_exactz 1 0 eq_refl ltac:(lia) ltac:(lia)) as (F & E); split; [exact F|eapply eq_trans; [exact E|]; change (p2 (- (0))) with 1; lra]).
  split; [|exact (proj2 F1)]. intros x [<-|[<-|[]]]; (split; [reflexivity|]); intros v Hv; apply repeat_spec in Hv; rewrite Hv; (split; [apply F1|]); destruct F1 as (_ & ->); rewrite Rabs_R1; apply pow_R1_Rle; lra.
Qed.
Example C52_inverse_example : let one := f32_dy 1 0 in let X := repeat one 160 in let d := repeat one 100 in
  Forall finite X /\ Forall finite d /\ norm 160 (number X) <= 2 ^ 60 /\ norm 100 (number d) <= 2 ^ 60.
Proof.
  intros one X d.
  assert (F1 : is_finite one = true /\ B2R one = 1) by (destruct (dy_exactz 1 0 eq_refl ltac:(lia) ltac:(lia)) as (F & E); split; [exact F|eapply eq_trans; [exact E|]; change (p2 (- (0))) with 1; lra]).
  assert (N : forall k n, Rabs (number (repeat one k) n) <= 1).
  { intros k n. unfold number. destruct (nth_in_or_default (Z.to_nat n) (repeat one k) (B754_zero false)) as [I|E].
    - apply repeat_spec in I. rewrite I. destruct F1 as (_ & ->). rewrite Rabs_R1. lra.
    - rewrite E. cbn [B2R]. rewrite Rabs_R0. lra. }
  assert (M : forall m k, (0 <= m <= 160)%Z -> norm m (number (repeat one k)) <= 2 ^ 60).
  { intros m k Hm. eapply Rle_trans; [apply (norm_mono _ _ (fun _ => 1)); intros n _; apply N|]. eapply Rle_trans; [apply norm_const; [lia|lra]|]. rewrite Rmult_1_r.
    eapply Rle_trans; [apply (sqrt_le_1_alt _ (16 * 16)); replace (16 * 16) with 256 by lra; apply IZR_le; lia|]. rewrite sqrt_square by lra. eapply Rle_trans; [|apply (Rle_pow 2 4 60); [lra|lia]]. lra. }
  repeat split; try (apply Forall_forall; intros v Hv; apply repeat_spec in Hv; rewrite Hv; apply F1); apply M; lia.
Qed.
Print Assumptions C52_rotations.
Print Assumptions C52_twiddles.
Print Assumptions C52_forward_error.
Print Assumptions C52_inverse_error.
Print Assumptions C52_pcm_size.
Print Assumptions C52_stream.
Print Assumptions C52_forward_rates.
Print Assumptions C52_inverse_rates.
