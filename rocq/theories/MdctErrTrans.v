(** * Rounding errors of the two transforms in binary32 *)
From Coq Require Import Reals ZArith List Bool Lia Lra ZifyBool.
From Flocq Require Import Core.Core IEEE754.BinarySingleNaN.
From Verif Require Import Base BaseProofs FloatLaws F32Model F32Proofs SpecEncFloat ConfigModel MdctModel MdctProofs MdctFft MdctSpec MdctErrSpec MdctMath MdctExact MdctStream ErrNorm ErrF32 MdctErr MdctTabErr MdctErrCore MdctErrDct MdctErrFwd.
Local Open Scope R_scope.

Definition tiny3 : R := p2 (-70).
Lemma tiny3_b : 0 < tiny /\ 1000 * tiny <= tiny2 /\ 0 < tiny2 /\ 1000 * tiny2 <= tiny3 /\ tiny3 <= 1.
Proof.
  destruct tiny_b as (A & B). split; [exact A|]. split; [exact B|]. split; [lra|]. split.
  - unfold tiny3, tiny2. change (-70)%Z with (10 + -80)%Z. rewrite (bpow_plus radix2 10 (-80)). apply Rmult_le_compat_r; [apply bpow_ge_0|]. cbn. lra.
  - change 1 with (p2 0). apply bpow_le. lia.
Qed.

(** The two transforms, on any FFT. *)
Definition forward_with (FFT : Z -> list f32 -> list f32 -> option (bool * (list f32 * list f32))) (rot : @mdct_rot f32) (ns nd : Z) (win : list f32) (ns_dst : Z) (scale : f32)
    (x d y buf : list f32) : option (list f32 * list f32) :=
  do r <- mdct_window f0 Add Sub Mul ns nd win x d buf; let '(d, u) := r in
  do u <- mdct_pre_fft f0 Add Sub Mul Bopp rot None u;
  do r <- FFT (ns / 2)%Z u y; let '(in_y, (cur, other)) := r in
  do y <- (if in_y : bool then mdct_post_fft f0 Add Sub Mul rot None cur else mdct_post_fft f0 Add Sub Mul rot (Some cur) other);
  do y <- (if (ns =? ns_dst)%Z then Some y else rescale f0 Mul y ns_dst scale);
  Some (d, y).
Definition inverse_with (FFT : Z -> list f32 -> list f32 -> option (bool * (list f32 * list f32))) (rot : @mdct_rot f32) (ns nd : Z) (win : list f32) (ns_src : Z) (scale : f32)
    (src : option (list f32)) (d y buf : list f32) : option (list f32 * list f32) :=
  do y <- imdct_pre_fft f0 Add Sub Mul Bopp rot src y;
  do r <- FFT (ns / 2)%Z y buf; let '(in_buf, (cur, other)) := r in
  do u <- (if in_buf : bool then imdct_post_fft f0 Add Sub Mul rot None cur else imdct_post_fft f0 Add Sub Mul rot (Some cur) other);
  let y := if in_buf : bool then other else cur in
  do u <- (if (ns =? ns_src)%Z then Some u else rescale f0 Mul u ns scale);
  imdct_window f0 Add Sub Mul ns nd win u d y.
Lemma forward_with_c T : mdct_forward f0 Add Sub Mul (@Bopp 24 128) T = forward_with (fft f0 Add Sub Mul T).
Proof. reflexivity. Qed.
Lemma inverse_with_c T : mdct_inverse f0 Add Sub Mul (@Bopp 24 128) T = inverse_with (fft f0 Add Sub Mul T).
Proof. reflexivity. Qed.

Section Trans.
Variables (FFT : Z -> list f32 -> list f32 -> option (bool * (list f32 * list f32))) (rot : @mdct_rot f32) (win : list f32) (Q nd : Z).
Let P := (2 * Q)%Z.
Let ns := (2 * P)%Z.
Hypothesis HQ : (0 < Q)%Z.
Hypothesis HP : (P <= 1000)%Z.
Hypothesis Hfft : fft_bound FFT P.
Hypothesis Er4 : r_n4 rot = P.
Hypothesis Erw : zlen (r_w rot) = P.
Hypothesis Nr : near_rot rot (2 * P).
Hypothesis Hcost : cost P <= 140.
Hypothesis Hnd : (P <= nd <= ns)%Z.
Hypothesis Ev : exists u, (ns - nd = 2 * u)%Z.
Hypothesis Lw : zlen win = (ns + nd)%Z.
Hypothesis Fw : forall n, (0 <= n)%Z -> fin (at_ f0 win n) /\ Rabs (val (at_ f0 win n)) <= 1064 / 1000.
Let wv n := val (at_ f0 win n).
Let nsP : (2 * P / 2 = P)%Z. Proof. rewrite Z.mul_comm. apply Z.div_mul. lia. Qed.

Lemma forward_err scale x d y buf : (ns <= zlen x)%Z -> (nd <= zlen d)%Z -> (ns <= zlen y)%Z -> (ns <= zlen buf)%Z ->
  (forall n, (0 <= n < ns + nd)%Z -> fin (tin f0 nd d x n)) ->
  let t := fun n => val (tin f0 nd d x n) in
  norm (2 * ns) (fun n => wv n * t n) <= p2 60 ->
  exists d' y', forward_with FFT rot ns nd win ns scale x d y buf = Some (d', y') /\ zlen d' = zlen d /\ zlen y' = zlen y /\
    (forall q, (0 <= q < nd)%Z -> at_ f0 d' q = at_ f0 x (ns - nd + q)) /\
    (forall k, (0 <= k < ns)%Z -> fin (at_ f0 y' k)) /\
    norm ns (fun k => val (at_ f0 y' k) - mdct ns wv t k) <= 231 * ru * (norm (2 * ns) (fun n => wv n * t n) + tiny3).
Proof.
  intros Lx Ld Ly Lb Ft t HV. unfold forward_with. unfold ns in *.
  destruct (mdct_window_ok f0 Add Sub Mul P nd win x d buf) as (d' & u & E1 & Ld' & Lu & Vd & Vu); try lia; [exact Ev|exists Q; reflexivity|].
  rewrite E1. cbn [bind].
  destruct (mdct_pre_ok f0 Add Sub Mul Bopp rot None u Q) as (u2 & E2 & L2 & V2); try (cbn [inp]; lia). rewrite E2. cbn [bind]. rewrite nsP.
  replace (2 * (2 * P))%Z with (4 * P)%Z in * by ring.
  assert (HP1 : (0 < P <= 1000)%Z) by lia.
  assert (Fw' : forall n, (0 <= n)%Z -> fin (at_ f0 win n)) by (intros n Hn; apply (Fw n Hn)).
  set (v := fun n => wv n * t n) in *. set (V := norm (4 * P) v) in *.
  pose proof (u_fin P nd win d x HP1 Hnd Lw Fw' Ft HV u Vu) as Fu.
  pose proof (fold_err P nd win d x HP1 Hnd Lw Fw' Ft HV u Vu) as FE. pose proof (fv_norm P nd win d x HP1 Hnd Lw Fw' Ft HV u Vu) as FN.
  cbv beta in FE, FN. change (norm (4 * P) (fun n => val (at_ f0 win n) * val (tin f0 nd d x n))) with V in FE, FN.
  set (G := folded P v) in *. change (folded P (fun n => val (at_ f0 win n) * val (tin f0 nd d x n))) with G in FE.
  set (xf := pairs Q (at_ f0 u)).
  assert (Xf : forall j, (0 <= j < P)%Z -> vc (xf j) = (fv P u (2 * j), fv P u (2 * P - 1 - 2 * j))).
  { intros j Hj. unfold xf, pairs, fv, vc. fold P. replace (2 * P - 1 - (2 * P - 1 - 2 * j))%Z with (2 * j)%Z by ring. destruct (j <? Q)%Z eqn:C; cbn [fst snd].
    - replace (2 * j <? P)%Z with true by lia. replace (2 * P - 1 - 2 * j <? P)%Z with false by lia. rewrite val_opp. f_equal; ring.
    - replace (2 * j <? P)%Z with false by lia. replace (2 * P - 1 - 2 * j <? P)%Z with true by lia. rewrite val_opp. f_equal; ring. }
  assert (NX : nrm P (fun j => vc (xf j)) = norm (2 * P) (fv P u)) by (rewrite <- norm_pairs by lia; apply nrm_ext; exact Xf).
  pose proof ru_b as U. destruct tiny3_b as (T0 & T1 & T2 & T3 & T4). assert (V0 : 0 <= V) by apply norm_pos.
  destruct (dct_core FFT Q HQ HP Hfft Hcost G xf u2 y) as (is1 & cur & other & E3 & L3a & L3b & R); [fold P; lia|fold P; lia| | | |].
  - intros j Hj. fold P in Hj. unfold xf, pairs, cfin. fold P. destruct (j <? Q)%Z; cbn [fst snd]; rewrite fin_opp; split; apply Fu; lia.
  - fold P. rewrite NX. assert (p2 60 + 1 <= p2 61) by (change 61%Z with (60 + 1)%Z; rewrite (bpow_plus radix2 60 1); change (p2 1) with 2; assert (p2 0 <= p2 60) by (apply bpow_le; lia); change (p2 0) with 1 in *; lra).
    assert (4 * p2 61 = p2 63) by (change 63%Z with (2 + 61)%Z; rewrite (bpow_plus radix2 2 61); reflexivity). assert (p2 63 <= p2 68) by (apply bpow_le; lia). lra.
  - intros ell j Hell Hj Hin. rewrite V2 by exact Hj. cbn [inp]. apply pre_close; assumption.
  - fold P in R, E3. rewrite E3. cbn [bind].
    assert (PO : exists y', (if is1 then mdct_post_fft f0 Add Sub Mul rot None cur else mdct_post_fft f0 Add Sub Mul rot (Some cur) other) = Some y' /\ zlen y' = zlen y /\
      (forall k, (0 <= k < 2 * P)%Z -> fin (at_ f0 y' k)) /\ norm (2 * P) (fun k => val (at_ f0 y' k) - dct4 (2 * P) G k) <= norm (2 * P) (fun n => fv P u n - G n) + 160 * ru * (norm (2 * P) (fv P u) + tiny2)).
    { assert (K : forall src yy, inp src yy = cur -> zlen yy = zlen y -> (4 * Q <= zlen cur)%Z -> exists y', mdct_post_fft f0 Add Sub Mul rot src yy = Some y' /\ zlen y' = zlen y /\
        (forall k, (0 <= k < 2 * P)%Z -> fin (at_ f0 y' k)) /\ norm (2 * P) (fun k => val (at_ f0 y' k) - dct4 (2 * P) G k) <= norm (2 * P) (fun n => fv P u n - G n) + 160 * ru * (norm (2 * P) (fv P u) + tiny2)).
      { intros src yy Ei Ly' Lc. destruct (mdct_post_ok f0 Add Sub Mul rot src yy Q) as (y' & E & L & Vy); try lia; [rewrite Ei; exact Lc|].
        exists y'. split; [exact E|]. split; [lia|]. rewrite Ei in Vy. cbv zeta in Vy. fold P in Vy.
        destruct (R (fun j => (at_ f0 y' (2 * j), at_ f0 y' (2 * P - 1 - 2 * j)))) as (Fr & Rr).
        { intros ell j Hell Hj Hin. destruct (Vy j Hj) as (-> & ->). apply (post_close rot Q); assumption. }
        split.
        - intros k Hk. destruct (Z.Even_or_Odd k) as [[p Ek]|[p Ek]].
          + rewrite Ek. apply (Fr p). lia.
          + replace k with (2 * P - 1 - 2 * (P - 1 - p))%Z by lia. apply (Fr (P - 1 - p)%Z). lia.
        - rewrite <- norm_pairs by lia. rewrite (nrm_ext P _ (fun j => csub (vc (at_ f0 y' (2 * j), at_ f0 y' (2 * P - 1 - 2 * j))) (dct4 (2 * P) G (2 * j), dct4 (2 * P) G (2 * P - 1 - 2 * j)))) by reflexivity.
          eapply Rle_trans; [exact Rr|]. rewrite NX. apply Rplus_le_compat_r. apply Req_le. rewrite <- norm_pairs by lia. apply nrm_ext. intros j Hj. rewrite (Xf j Hj). reflexivity. }
      destruct is1; apply K; try reflexivity; try assumption; lia. }
    destruct PO as (y' & E4 & L4 & F4 & V4). rewrite E4. cbn [bind]. rewrite Z.eqb_refl. cbn [bind]. exists d', y'. split; [reflexivity|]. split; [exact Ld'|]. split; [exact L4|]. split; [exact Vd|]. split; [exact F4|].
    rewrite (norm_ext _ _ (fun k => val (at_ f0 y' k) - dct4 (2 * P) G k)) by (intros k _; rewrite mdct_folded by lia; reflexivity).
    eapply Rle_trans; [exact V4|].
    assert (A1 : 4004 / 1000 * ru * (V + tiny) <= 4004 / 1000 * ru * (V + tiny3)) by (apply Rmult_le_compat_l; lra).
    assert (A2 : 160 * ru * (norm (2 * P) (fv P u) + tiny2) <= 160 * ru * (1416 / 1000 * (V + tiny3))) by (apply Rmult_le_compat_l; lra).
    assert (A3 : 0 <= ru * (V + tiny3)) by (apply Rmult_le_pos; lra). lra.
Qed.
End Trans.
