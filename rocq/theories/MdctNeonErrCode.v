(** * Rounding errors of the NEON transforms of the code *)
From Coq Require Import Reals ZArith List Bool Lia Lra ZifyBool.
From Flocq Require Import Core.Core IEEE754.BinarySingleNaN.
From Verif Require Import Base BaseProofs FloatLaws FloatOps F32Model F32Proofs SpecEncFloat ConfigModel MdctModel MdctTables MdctProofs MdctFft MdctSpec MdctErrSpec MdctMath MdctExact MdctStream MdctWindows MdctFloat SynthModel EncModel
  ErrNorm ErrF32 MdctErr MdctTabErr MdctErrDct MdctErrTrans MdctErrInv MdctErrFwd MdctErrCode MdctErrStream MdctErrRate MdctErrAny
  MdctNeonModel MdctNeonProofs MdctNeonStream MdctNeonF32Model MdctNeonErr.
Import ListNotations.
Local Open Scope R_scope.

Definition fft_neon := neon_fft f0 Add Sub (@Bopp 24 128) Fma Fms (code_fft c80).
Lemma fft_neon_ok dt sr : has_transform dt sr -> fft_bound fft_neon (c_ns dt sr / 2).
Proof.
  intros Hc. destruct (cfg_ok dt sr Hc) as (Q & HQ & Ha & Hb & EP & Ens & Ef & Hnd & Hu & HM). pose proof (shapes_f32 dt sr Hc) as Hs. unfold shapes in Hs. cbv zeta in Hs. destruct Hs as (S1 & _). unfold MAX_NS in HM. pose proof (cfg_even dt sr Hc).
  apply (neon_fft_err _ (exp3 (c_ns dt sr / 2)) (exp2 (c_ns dt sr / 2))); [lia|lia|lia|lia|exact S1|apply (code_near_fft _ _ S1)].
Qed.
Lemma neon_forward_fwd nan junk dt srp sr x d y : neon_forward nan junk dt srp sr x d y = fwd fft_neon junk dt srp sr x d y.
Proof. reflexivity. Qed.
Lemma neon_inverse_inv nan junk dt srp sr src d y : neon_inverse nan junk dt srp sr src d y = inv fft_neon junk dt srp sr src d y.
Proof. reflexivity. Qed.

(** As [fchain], on AArch64. *)
Fixpoint neon_chain (nan : Z) (junk : f32) (dt sr : Z) (ybuf : list f32) (frames : list (list f32)) (de dd : list f32) : option (list (list f32)) :=
  match frames with
  | [] => Some []
  | x :: r =>
    do e <- neon_forward nan junk dt sr sr x de ybuf;
    do o <- neon_inverse nan junk dt sr sr (Some (snd e)) dd ybuf;
    do os <- neon_chain nan junk dt sr ybuf r (fst e) (fst o);
    Some (snd o :: os)
  end.
Lemma neon_chain_with nan junk dt sr ybuf frames : forall de dd, neon_chain nan junk dt sr ybuf frames de dd = chain_with fft_neon junk dt sr ybuf frames de dd.
Proof.
  induction frames as [|x r IH]; intros de dd; cbn [neon_chain chain_with]; [reflexivity|]. rewrite (neon_forward_fwd nan).
  destruct (fwd fft_neon junk dt sr sr x de ybuf) as [e|]; cbn [bind]; [|reflexivity]. rewrite (neon_inverse_inv nan).
  destruct (inv fft_neon junk dt sr sr (Some (snd e)) dd ybuf) as [o|]; cbn [bind]; [|reflexivity]. rewrite IH. reflexivity.
Qed.
