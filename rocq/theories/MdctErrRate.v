(** * Rounding errors of the transforms between different sample rates *)
From Coq Require Import Reals ZArith List Bool Lia Lra ZifyBool.
From Flocq Require Import Core.Core IEEE754.BinarySingleNaN.
From Verif Require Import Base BaseProofs FloatLaws FloatOps F32Model F32Proofs SpecEncFloat ConfigModel MdctModel MdctTables MdctProofs MdctFft MdctSpec MdctErrSpec MdctMath MdctExact MdctStream MdctWindows MdctFloat SynthModel EncModel FrontRun
  ErrNorm ErrF32 MdctErr MdctTabErr MdctErrCore MdctErrDct MdctErrFwd MdctErrTrans MdctErrInv MdctErrCode MdctErrStream.
Import ListNotations.
Local Open Scope R_scope.

(** ** The factor *)
Lemma le_sqrt_sq a b : 0 <= a -> a * a <= b -> a <= sqrt b.
Proof. intros H1 H2. rewrite <- (sqrt_square a H1). apply sqrt_le_1_alt. exact H2. Qed.
Lemma int_exact n : (0 <= n < 2 ^ 20)%Z -> fin (f32_dy n 0) /\ val (f32_dy n 0) = IZR n.
Proof.
  intros H. destruct (dy_exactz n 0) as (F & E); try lia.
  - unfold exactz. assert (L : (Z.log2 (Z.abs n) < 20)%Z). { destruct (Z.eq_dec n 0) as [->|N]; [reflexivity|]. apply Z.log2_lt_pow2; lia. }
    replace (Z.max 0 (Z.log2 (Z.abs n) - 23)) with 0%Z by lia. rewrite Z.pow_0_r, Z.mod_1_r. reflexivity.
  - split; [exact F|]. eapply eq_trans; [exact E|]. change (p2 (- (0))) with 1. ring.
Qed.
Lemma ratio_val a b : (1 <= a < 2 ^ 20)%Z -> (1 <= b < 2 ^ 20)%Z -> let c := sqrt (IZR a / IZR b) in
  fin (ratio a b) /\ Rabs (val (ratio a b) - c) <= 3 * ru * c.
Proof.
  intros Ha Hb c. destruct (int_exact a ltac:(lia)) as (Fa & Va). destruct (int_exact b ltac:(lia)) as (Fb & Vb). pose proof ru_b as U.
  assert (A1 : 1 <= IZR a <= p2 20) by (split; [apply IZR_le; lia|change (p2 20) with (IZR (2 ^ 20)); apply IZR_le; lia]).
  assert (B1 : 1 <= IZR b <= p2 20) by (split; [apply IZR_le; lia|change (p2 20) with (IZR (2 ^ 20)); apply IZR_le; lia]).
  set (q := IZR a / IZR b) in *.
  assert (Q1 : p2 (-20) <= q <= p2 20).
  { assert (E : q * IZR b = IZR a) by (unfold q; field; lra). assert (P0 : p2 (-20) * p2 20 = 1) by (rewrite <- bpow_plus; reflexivity). pose proof (bpow_gt_0 radix2 (-20)). pose proof (bpow_gt_0 radix2 20).
    split; apply (Rmult_le_reg_r (IZR b)); try lra; rewrite E.
    - apply Rle_trans with (p2 (-20) * p2 20); [apply Rmult_le_compat_l; lra|lra].
    - apply Rle_trans with (p2 20 * 1); [lra|]. apply Rmult_le_compat_l; lra. }
  assert (Q0 : 0 < p2 (-20)) by apply bpow_gt_0. assert (SQ : scale_ok q) by (split; [apply Rle_trans with (p2 (-20)); [apply bpow_le; lia|lra]|apply Rle_trans with (p2 20); [lra|apply bpow_le; lia]]).
  destruct (rnd_close q q) as (N & E1). { rewrite Rabs_pos_eq; lra. } { apply Rle_trans with (p2 20); [lra|apply bpow_le; lia]. }
  pose proof (rt_ell q SQ) as T1. destruct (div_val (f32_dy a 0) (f32_dy b 0) Fa) as (Fd & Vd). { rewrite Vb. lra. } { rewrite Va, Vb. exact N. }
  rewrite Va, Vb in Vd. fold q in Vd. set (v := val (Div (f32_dy a 0) (f32_dy b 0))) in *. rewrite <- Vd in E1. assert (E2 : Rabs (v - q) <= (1 + / 1000000) * ru * q) by lra.
  assert (q0 : 0 < q) by lra.
  assert (U2 : (1 + / 1000000) * ru * q <= / 1000 * q) by (apply Rmult_le_compat_r; lra). assert (V0 : 0 <= v) by (apply Rabs_le_inv in E2; lra).
  destruct (sqrt_fin _ Fd V0) as (Fs & Vs). split; [exact Fs|]. unfold ratio. rewrite Vs. fold v.
  assert (C0 : 0 < c) by (apply sqrt_lt_R0; exact q0). assert (CC : c * c = q) by (apply sqrt_sqrt; lra).
  set (w := sqrt v). assert (W0 : 0 <= w) by apply sqrt_pos. assert (WW : w * w = v) by (apply sqrt_sqrt; exact V0).
  assert (D : Rabs (w - c) <= (1 + / 1000000) * ru * c).
  { apply (Rmult_le_reg_r (w + c)); [lra|]. replace (Rabs (w - c) * (w + c)) with (Rabs (v - q)) by (rewrite <- WW, <- CC; replace (w * w - c * c) with ((w - c) * (w + c)) by ring; rewrite Rabs_mult, (Rabs_pos_eq (w + c)) by lra; ring).
    eapply Rle_trans; [exact E2|]. rewrite <- CC, <- Rmult_assoc. apply Rmult_le_compat_l; [|lra]. apply Rmult_le_pos; [lra|lra]. }
  pose proof (rnd_err w) as E3. rewrite (Rabs_pos_eq w) in E3 by exact W0.
  assert (SC : scale_ok c).
  { assert (C10 : p2 (-10) <= c) by (apply le_sqrt_sq; [apply bpow_ge_0|]; rewrite <- bpow_plus; exact (proj1 Q1)). assert (C11 : c <= p2 10) by (apply sqrt_le_sq; [apply bpow_ge_0|]; rewrite <- bpow_plus; exact (proj2 Q1)).
    split; [eapply Rle_trans; [|exact C10]; apply bpow_le; lia|eapply Rle_trans; [exact C11|]; apply bpow_le; lia]. }
  pose proof (rt_ell c SC) as T2. assert (U3 : (1 + / 1000000) * ru * c <= / 1000 * c) by (apply Rmult_le_compat_r; lra).
  assert (W1 : w <= (1 + / 1000) * c) by (apply Rabs_le_inv in D; lra). assert (ru * w <= ru * ((1 + / 1000) * c)) by (apply Rmult_le_compat_l; lra). assert (0 <= ru * c) by (apply Rmult_le_pos; lra).
  replace (rnd32 w - c) with ((rnd32 w - w) + (w - c)) by ring. eapply Rle_trans; [apply Rabs_triang|]. lra.
Qed.

Definition rates_check : bool := MdctWindows.all_cfg (fun dt srp => forallb (fun sr => (srp <? sr) || ((c_ns dt sr <=? c_ns dt srp) && (c_ns dt srp <=? 64 * c_ns dt sr)))%Z [0; 1; 2; 3; 4; 5; 6]%Z).
Lemma rates_ok dt sr srp : has_transform dt srp -> (0 <= sr <= srp)%Z -> has_transform dt sr /\ (c_ns dt sr <= c_ns dt srp)%Z /\ (c_ns dt srp <= 64 * c_ns dt sr)%Z.
Proof.
  intros Hc Hs. split; [destruct Hc as (H1 & H2 & H3); split; [exact H1|]; split; [lia|]; intros H; specialize (H3 H); lia|].
  assert (A : rates_check = true) by (vm_compute; reflexivity). pose proof (all_cfg_ok _ dt srp A Hc) as H. cbv beta in H. rewrite forallb_forall in H. specialize (H sr). destruct Hc as (_ & H2 & _).
  assert (I : In sr [0; 1; 2; 3; 4; 5; 6]%Z) by (cbn [In]; lia). specialize (H I). lia.
Qed.

Section Rates.
Variables (FFT : Z -> list f32 -> list f32 -> option (bool * (list f32 * list f32))) (junk : f32).
Hypothesis HF : forall dt sr, has_transform dt sr -> fft_bound FFT (c_ns dt sr / 2).
(** ** Forward *)
Lemma forward_split dt srp sr x d y : fwd FFT junk dt srp sr x d y =
  (do r <- fwd FFT junk dt srp srp x d y;
   do y2 <- (if (c_ns dt srp =? c_ns dt sr)%Z then Some (snd r) else rescale f0 Mul (snd r) (c_ns dt sr) (ratio (c_ns dt sr) (c_ns dt srp)));
   Some (fst r, y2))%Z.
Proof.
  unfold fwd, forward_with. rewrite Z.eqb_refl.
  match goal with |- bind ?a _ = _ => destruct a as [(d1 & u1)|]; cbn [bind]; [|reflexivity] end.
  match goal with |- bind ?a _ = _ => destruct a as [u2|]; cbn [bind]; [|reflexivity] end.
  match goal with |- bind ?a _ = _ => destruct a as [(i1 & (c1 & o1))|]; cbn [bind]; [|reflexivity] end.
  match goal with |- bind ?a _ = _ => destruct a as [y1|]; cbn [bind fst snd]; reflexivity end.
Qed.

Lemma forward_rate dt srp sr x d y : has_transform dt srp -> (0 <= sr <= srp)%Z -> zlen x = c_ns dt srp -> zlen d = c_nd dt srp -> (c_ns dt srp <= zlen y)%Z ->
  Forall fin x -> Forall fin d ->
  let ns := c_ns dt srp in let nd := c_nd dt srp in let nt := c_ns dt sr in let c := sqrt (IZR nt / IZR ns) in let t := fun n => val (at_ f0 (d ++ x) n) in
  let V := norm (2 * ns) (fun n => the_win dt srp n * t n) in V <= p2 60 ->
  exists d' y', fwd FFT junk dt srp sr x d y = Some (d', y') /\ zlen y' = zlen y /\ d' = skipn (Z.to_nat (ns - nd)) x /\
    (forall k, (0 <= k < nt)%Z -> fin (at_ f0 y' k)) /\
    norm nt (fun k => val (at_ f0 y' k) - c * mdct ns (the_win dt srp) t k) <= 240 * ru * (c * V + tiny3).
Proof.
  intros Hc Hs Lx Ld Ly Fx Fd ns nd nt c t V HV. destruct (rates_ok dt sr srp Hc Hs) as (Hc2 & R1 & R2).
  destruct (cfg_ok dt srp Hc) as (Q & HQ & _ & _ & _ & Ens & _ & _ & _ & HM). destruct (cfg_ok dt sr Hc2) as (Q2 & HQ2 & _ & _ & _ & Ens2 & _ & _ & _ & HM2).
  destruct (forward_code FFT junk HF dt srp x d y Hc Lx Ld Ly Fx Fd HV) as (d' & y0 & E & L & V1 & F & B). fold ns in HM, Ens, R1, R2, Lx, Ly, B, F. cbv zeta in F, V1, B. fold nt in R1, R2, Ens2, HM2.
  change (norm (2 * ns) (fun n => the_win dt srp n * val (at_ f0 (d ++ x) n))) with V in B. change (fun n => val (at_ f0 (d ++ x) n)) with t in B. unfold MAX_NS in *.
  rewrite forward_split, E. cbn [bind fst snd]. fold ns nt. pose proof ru_b as U. destruct tiny3_b as (T0 & T1 & T2 & T3 & T4). assert (V0 : 0 <= V) by apply norm_pos.
  assert (I0 : 1 <= IZR nt) by (apply IZR_le; lia). assert (I1 : IZR nt <= IZR ns) by (apply IZR_le; lia).
  assert (CQ : 0 < IZR nt / IZR ns <= 1) by (split; [apply Rdiv_lt_0_compat; lra|apply (Rmult_le_reg_r (IZR ns)); [lra|]; unfold Rdiv; rewrite Rmult_assoc, Rinv_l by lra; lra]).
  assert (C0 : 0 < c) by (apply sqrt_lt_R0; apply CQ). assert (C1 : c <= 1) by (apply sqrt_le_sq; lra).
  destruct (Z.eqb_spec ns nt) as [EQ|NE]; cbn [bind].
  - exists d', y0. split; [reflexivity|]. split; [exact L|]. split; [exact V1|]. rewrite <- EQ. split; [exact F|].
    assert (c = 1) as -> by (unfold c; rewrite <- EQ; unfold Rdiv; rewrite Rinv_r by (rewrite EQ; lra); apply sqrt_1).
    rewrite (norm_ext ns _ (fun k => val (at_ f0 y0 k) - mdct ns (the_win dt srp) t k)) by (intros; ring). eapply Rle_trans; [exact B|]. rewrite Rmult_1_l. apply Rmult_le_compat_r; lra.
  - destruct (rescale_ok f0 Mul y0 nt (ratio nt ns) Q2 ltac:(lia) ltac:(lia) ltac:(lia)) as (y' & E5 & L5 & V5). rewrite E5. cbn [bind]. exists d', y'. split; [reflexivity|]. split; [lia|]. split; [exact V1|].
    destruct (ratio_val nt ns ltac:(lia) ltac:(lia)) as (Fr & Er). fold c in Er.
    assert (SUB : forall g, norm nt g <= norm ns g) by (intros g; pose proof (norm_seg ns 0 nt g ltac:(lia) ltac:(lia) ltac:(lia)) as H; exact H).
    assert (VT : 0 <= ru * (V + tiny3)) by (apply Rmult_le_pos; lra).
    destruct (rescale_err nt y0 (ratio nt ns) (mdct ns (the_win dt srp) t) c (1415 / 1000 * V) (231 * ru * (V + tiny3))) as (F5 & B5).
    + lia.
    + intros k Hk. apply F. lia.
    + exact Fr.
    + lra.
    + exact Er.
    + eapply Rle_trans; [apply SUB|exact B].
    + eapply Rle_trans; [apply SUB|]. pose proof (mdct_norm Q (the_win dt srp) t HQ ltac:(lia)) as M. cbv zeta in M. rewrite <- Ens in M. exact M.
    + apply Rle_trans with (/ 1000 * (V + tiny3)); [apply Rmult_le_compat_r; lra|lra].
    + apply Rle_trans with (2 * p2 60); [lra|]. change 61%Z with (1 + 60)%Z. rewrite (bpow_plus radix2 1 60). apply Req_le. reflexivity.
    + split.
      * intros k Hk. rewrite V5 by lia. replace (k <? nt)%Z with true by lia. apply F5, Hk.
      * rewrite (norm_ext nt _ (fun k => val (Mul (at_ f0 y0 k) (ratio nt ns)) - c * mdct ns (the_win dt srp) t k)) by (intros k Hk; rewrite V5 by lia; replace (k <? nt)%Z with true by lia; reflexivity).
        eapply Rle_trans; [exact B5|].
        assert (A1 : c * (1 + 5 * ru) * (231 * ru * (V + tiny3)) <= c * (1 + / 1000000) * (231 * ru * (V + tiny3))) by (apply Rmult_le_compat_r; [lra|apply Rmult_le_compat_l; lra]).
        assert (A2 : c * (ru * tiny3) <= 1 * (ru * tiny3)) by (apply Rmult_le_compat_r; [apply Rmult_le_pos; lra|lra]).
        assert (A3 : 0 <= ru * (c * V)) by (apply Rmult_le_pos; [lra|apply Rmult_le_pos; lra]). assert (A4 : ru * tiny <= ru * tiny3) by (apply Rmult_le_compat_l; lra). assert (0 <= ru * tiny3) by (apply Rmult_le_pos; lra). lra.
Qed.

(** ** Inverse *)
Lemma inverse_rate dt srp sr src d y : has_transform dt srp -> (0 <= sr <= srp)%Z -> (c_ns dt srp <= zlen (inp src y))%Z -> zlen d = c_nd dt srp -> (c_ns dt srp <= zlen y)%Z ->
  let ns := c_ns dt srp in let nd := c_nd dt srp in let c := sqrt (IZR ns / IZR (c_ns dt sr)) in
  (forall n, (0 <= n < ns)%Z -> fin (at_ f0 (inp src y) n)) -> Forall fin d ->
  let X := fun n => val (at_ f0 (inp src y) n) in let D := fun n => val (at_ f0 d n) in
  let v := fun n => the_win dt srp (2 * ns - 1 - n) * (c * imdct ns X n) in
  norm ns X <= p2 60 -> norm nd D <= p2 60 ->
  exists d' y', inv FFT junk dt srp sr src d y = Some (d', y') /\ zlen d' = zlen d /\ zlen y' = zlen y /\ Forall fin d' /\
    (forall q, (0 <= q < ns)%Z -> fin (at_ f0 y' q)) /\
    norm nd (fun q => val (at_ f0 d' q) - v (2 * ns - nd + q)%Z) <= 256 * ru * (c * norm ns X + tiny3) /\
    norm ns (fun q => val (at_ f0 y' q) - ((if (q <? nd)%Z then D q else 0) + v (ns - nd + q)%Z)) <= 256 * ru * (c * norm ns X + tiny3) + 4 * ru * norm nd D.
Proof.
  intros Hc Hs Lx Ld Ly ns nd c Fx Fd X D v HX HD. destruct (rates_ok dt sr srp Hc Hs) as (Hc2 & R1 & R2).
  destruct (cfg_ok dt sr Hc2) as (Q2 & HQ2 & _ & _ & _ & Ens2 & _ & _ & _ & HM2).
  destruct (cfg_ok dt srp Hc) as (Q & HQ & Ha & Hb & EP & Ens & Ef & Hnd & Hu & HM). pose proof (shapes_f32 dt srp Hc) as S0. unfold shapes in S0. cbv zeta in S0. destruct S0 as (S1 & S2 & S3 & S4).
  assert (Hb5 : (0 <= exp2 (c_ns dt srp / 2) <= 5)%Z) by (destruct (exp3 (c_ns dt srp / 2) =? 2)%Z; lia).
  assert (Lb : zlen (repeat junk (Z.to_nat MAX_NS)) = MAX_NS) by (unfold zlen; rewrite repeat_length; reflexivity).
  pose proof (code_near_rot dt srp Hc) as NR. pose proof (cost_cfg dt srp Hc) as CC. fold ns in Lx, Ly, Ha, Hb, Hb5, EP, Ens, Ef, Hnd, Hu, HM, S1, S2, S3, S4, NR, CC, R1, R2. fold nd in Ld, Hnd, Hu, S4.
  assert (WV : forall n, (0 <= n)%Z -> val (at_ f0 (code_win c47 dt srp) n) = the_win dt srp n) by (intros n Hn; apply (win_at dt srp n Hc Hn)).
  set (nt := c_ns dt sr) in *. unfold MAX_NS in HM, HM2.
  assert (I0 : 1 <= IZR nt) by (apply IZR_le; lia). assert (I1 : IZR nt <= IZR ns) by (apply IZR_le; lia). assert (I2 : IZR ns <= 64 * IZR nt) by (rewrite <- mult_IZR; apply IZR_le; lia).
  assert (CQ : 1 <= IZR ns / IZR nt <= 64) by (split; apply (Rmult_le_reg_r (IZR nt)); try lra; unfold Rdiv; rewrite Rmult_assoc, Rinv_l by lra; lra).
  assert (C1 : 1 <= c) by (apply le_sqrt_sq; lra). assert (C8 : c <= 8) by (apply sqrt_le_sq; lra).
  assert (FC : exists kc, factor ns nt (ratio ns nt) c kc /\ 1505 / 1000 * kc + 5 <= 256).
  { destruct (Z.eq_dec ns nt) as [EQ|NE].
    - exists 160. split; [left|lra]. split; [exact EQ|]. split; [|reflexivity]. unfold c. rewrite EQ. unfold Rdiv. rewrite Rinv_r by lra. apply sqrt_1.
    - exists 166. split; [right|lra]. destruct (ratio_val ns nt ltac:(lia) ltac:(lia)) as (Fr & Er). split; [exact NE|]. split; [exact Fr|]. split; [lra|]. split; [exact Er|reflexivity]. }
  destruct FC as (kc & FC & KB).
  pose proof (HF dt srp Hc) as HB. fold ns in HB. rewrite EP in HB. pose proof (inverse_err_rate FFT (code_rot c80 dt srp) (code_win c47 dt srp) Q nd HQ) as FE. cbv zeta in FE. rewrite <- Ens in FE.
  destruct (FE ltac:(lia) HB ltac:(lia) ltac:(lia) NR ltac:(rewrite <- EP; exact CC) ltac:(lia) Hu S4 ltac:(intros n Hn; apply (win_at dt srp n Hc Hn))
    nt c kc (ratio ns nt) src d y (repeat junk (Z.to_nat MAX_NS)) FC) as (d' & y' & E & L1 & L2 & F1 & F2 & V1 & V2); clear FE; try (unfold MAX_NS in *; lia); try assumption.
  - intros n Hn. apply (at_Forall fin); [exact Fd|lia].
  - assert (K : (1505 / 1000 * kc + 5) * ru * (c * norm ns X + tiny3) <= 256 * ru * (c * norm ns X + tiny3)).
    { pose proof ru_b. pose proof (norm_pos ns X). assert (0 <= tiny3) by apply bpow_ge_0. assert (0 <= c * norm ns X) by (apply Rmult_le_pos; lra). apply Rmult_le_compat_r; [lra|]. apply Rmult_le_compat_r; lra. }
    exists d', y'. split; [exact E|]. split; [exact L1|]. split; [exact L2|]. split; [apply (Forall_at _ d' nd); [lia|exact F1]|]. split; [exact F2|]. split.
    + eapply Rle_trans; [|eapply Rle_trans; [exact V1|exact K]]. apply Req_le, norm_ext. intros q Hq. unfold v. rewrite WV by lia. do 3 f_equal. lia.
    + eapply Rle_trans; [|eapply Rle_trans; [exact V2|apply Rplus_le_compat_r; exact K]]. apply Req_le, norm_ext. intros q Hq. unfold v. rewrite WV by lia. do 4 f_equal. lia.
Qed.
End Rates.
