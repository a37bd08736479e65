(** * Rounding errors of the transforms of the code *)
From Coq Require Import Reals ZArith List Bool Lia Lra ZifyBool.
From Flocq Require Import Core.Core IEEE754.BinarySingleNaN.
From Verif Require Import Base BaseProofs FloatLaws FloatOps F32Model F32Proofs SpecEncFloat ConfigModel MdctModel MdctTables MdctProofs MdctFft MdctSpec MdctErrSpec MdctMath MdctExact MdctStream MdctWindows MdctFloat SynthModel EncModel FrontRun
  ErrNorm ErrF32 MdctErr MdctTabErr MdctErrCore MdctErrDct MdctErrFwd MdctErrTrans MdctErrInv.
Import ListNotations.
Local Open Scope R_scope.

Definition win_z (z : Z) : bool := (exactz z && (Z.abs z <=? 2 ^ 100) && (1000 * Z.abs z <=? 1064 * 2 ^ 47))%Z.
Lemma win_z_ok : MdctWindows.all_cfg (fun dt sr => forallb win_z (znth (znth mdct_win dt []) sr [])) = true.
Proof. vm_compute. reflexivity. Qed.
Lemma cost_z_ok : MdctWindows.all_cfg (fun dt sr => let P := (c_ns dt sr / 2)%Z in (4670 + 2880 * exp3 P + 1161 * exp2 P <=? 14000)%Z) = true.
Proof. vm_compute. reflexivity. Qed.

(** The window of the code, as numbers. *)
Definition the_win (dt sr n : Z) : R := rat (code_win win_value dt sr) n.
Lemma win_at dt sr n : has_transform dt sr -> (0 <= n)%Z ->
  (fin (at_ f0 (code_win c47 dt sr) n) /\ Rabs (val (at_ f0 (code_win c47 dt sr) n)) <= 1064 / 1000) /\ val (at_ f0 (code_win c47 dt sr) n) = the_win dt sr n.
Proof.
  intros Hc Hn. pose proof (all_cfg_ok _ dt sr win_z_ok Hc) as H. cbv beta in H. rewrite forallb_forall in H.
  unfold the_win, code_win. rewrite win_value_at. unfold at_. set (l := znth (znth mdct_win dt []) sr []) in *.
  replace (nth (Z.to_nat n) (map c47 l) f0) with (c47 (nth (Z.to_nat n) l 0%Z)) by (symmetry; exact (map_nth c47 l 0%Z (Z.to_nat n))).
  assert (W : win_z (nth (Z.to_nat n) l 0%Z) = true).
  { destruct (nth_in_or_default (Z.to_nat n) l 0%Z) as [I|E]; [apply H, I|rewrite E; reflexivity]. }
  set (z := nth (Z.to_nat n) l 0%Z) in *. unfold win_z in W. apply andb_prop in W. destruct W as (W & W3). apply andb_prop in W. destruct W as (W1 & W2). apply Z.leb_le in W2, W3.
  destruct (dy_exactz z 47 W1 W2 ltac:(lia)) as (F & E). change (c47 z) with (f32_dy z 47) in *. rewrite E. assert (P47 : p2 (- (47)) = / IZR (2 ^ 47)) by (rewrite bpow_opp; reflexivity). rewrite P47. split; [|reflexivity]. split; [exact F|].
  apply IZR_le in W3. rewrite !mult_IZR, abs_IZR in W3. assert (K : 0 < IZR (2 ^ 47)) by (apply IZR_lt; reflexivity). rewrite Rabs_mult, (Rabs_pos_eq (/ _)) by (apply Rlt_le, Rinv_0_lt_compat, K).
  apply (Rmult_le_reg_r (IZR (2 ^ 47))); [exact K|]. rewrite Rmult_assoc, Rinv_l by lra. lra.
Qed.
Lemma cost_cfg dt sr : has_transform dt sr -> cost (c_ns dt sr / 2) <= 140.
Proof.
  intros Hc. pose proof (all_cfg_ok _ dt sr cost_z_ok Hc) as H. cbv beta zeta in H. apply Z.leb_le, IZR_le in H. rewrite !plus_IZR, !mult_IZR in H. unfold cost. lra.
Qed.
Lemma ru_16 : 256 * ru = / 2 ^ 16. Proof. rewrite ru_eq. field. Qed.

(** The transforms of the code, on any FFT. *)
Section Code.
Variables (FFT : Z -> list f32 -> list f32 -> option (bool * (list f32 * list f32))) (junk : f32).
Hypothesis HF : forall dt sr, has_transform dt sr -> fft_bound FFT (c_ns dt sr / 2).
Definition fwd (dt srp sr : Z) (x d y : list f32) : option (list f32 * list f32) :=
  forward_with FFT (code_rot c80 dt srp) (c_ns dt srp) (c_nd dt srp) (code_win c47 dt srp) (c_ns dt sr) (ratio (c_ns dt sr) (c_ns dt srp)) x d y (repeat junk (Z.to_nat MAX_NS)).
Definition inv (dt srp sr : Z) (src : option (list f32)) (d y : list f32) : option (list f32 * list f32) :=
  inverse_with FFT (code_rot c80 dt srp) (c_ns dt srp) (c_nd dt srp) (code_win c47 dt srp) (c_ns dt sr) (ratio (c_ns dt srp) (c_ns dt sr)) src d y (repeat junk (Z.to_nat MAX_NS)).

Lemma forward_code dt sr x d y : has_transform dt sr -> zlen x = c_ns dt sr -> zlen d = c_nd dt sr -> (c_ns dt sr <= zlen y)%Z ->
  Forall fin x -> Forall fin d ->
  let ns := c_ns dt sr in let nd := c_nd dt sr in let t := fun n => val (at_ f0 (d ++ x) n) in
  norm (2 * ns) (fun n => the_win dt sr n * t n) <= p2 60 ->
  exists d' y', fwd dt sr sr x d y = Some (d', y') /\ zlen y' = zlen y /\ d' = skipn (Z.to_nat (ns - nd)) x /\
    (forall k, (0 <= k < ns)%Z -> fin (at_ f0 y' k)) /\
    norm ns (fun k => val (at_ f0 y' k) - mdct ns (the_win dt sr) t k) <= 231 * ru * (norm (2 * ns) (fun n => the_win dt sr n * t n) + tiny3).
Proof.
  intros Hc Lx Ld Ly Fx Fd ns nd t HV. destruct (cfg_ok dt sr Hc) as (Q & HQ & Ha & Hb & EP & Ens & Ef & Hnd & Hu & HM). pose proof (shapes_f32 dt sr Hc) as Hs. unfold shapes in Hs. cbv zeta in Hs. destruct Hs as (S1 & S2 & S3 & S4).
  assert (Hb5 : (0 <= exp2 (c_ns dt sr / 2) <= 5)%Z) by (destruct (exp3 (c_ns dt sr / 2) =? 2)%Z; lia).
  assert (Lb : zlen (repeat junk (Z.to_nat MAX_NS)) = MAX_NS) by (unfold zlen; rewrite repeat_length; reflexivity).
  pose proof (code_near_rot dt sr Hc) as NR. pose proof (cost_cfg dt sr Hc) as CC. fold ns in Lx, Ly, Ha, Hb, Hb5, EP, Ens, Ef, Hnd, Hu, HM, S1, S2, S3, S4, NR, CC. fold nd in Ld, Hnd, Hu, S4.
  assert (TE : forall n, tin f0 nd d x n = at_ f0 (d ++ x) n \/ (n < 0)%Z).
  { intros n. destruct (Z_lt_le_dec n 0) as [L|L]; [right; exact L|left]. unfold tin, at_. destruct (n <? nd)%Z eqn:C; [rewrite app_nth1|rewrite app_nth2]; unfold zlen in *; try lia; [reflexivity|]. f_equal. lia. }
  assert (TV : forall n, (0 <= n)%Z -> val (tin f0 nd d x n) = t n) by (intros n Hn; destruct (TE n) as [->|]; [reflexivity|lia]).
  assert (WV : forall n, (0 <= n)%Z -> val (at_ f0 (code_win c47 dt sr) n) = the_win dt sr n) by (intros n Hn; apply (win_at dt sr n Hc Hn)).
  assert (NV : norm (2 * ns) (fun n => val (at_ f0 (code_win c47 dt sr) n) * val (tin f0 nd d x n)) = norm (2 * ns) (fun n => the_win dt sr n * t n)) by (apply norm_ext; intros n Hn; rewrite WV, TV by lia; reflexivity).
  pose proof (HF dt sr Hc) as HB. fold ns in HB. rewrite EP in HB. pose proof (forward_err FFT (code_rot c80 dt sr) (code_win c47 dt sr) Q nd HQ) as FE. cbv zeta in FE. rewrite <- Ens in FE.
  destruct (FE ltac:(unfold MAX_NS in HM; lia) HB ltac:(lia) ltac:(lia) NR ltac:(rewrite <- EP; exact CC) ltac:(lia) Hu S4 ltac:(intros n Hn; apply (win_at dt sr n Hc Hn))
    (ratio ns ns) x d y (repeat junk (Z.to_nat MAX_NS))) as (d' & y' & E & L1 & L2 & V1 & F2 & V2); clear FE; try lia.
  - intros n Hn. unfold tin. destruct (n <? nd)%Z eqn:C; apply (at_Forall fin); try assumption; lia.
  - rewrite NV. exact HV.
  - exists d', y'. split; [exact E|]. split; [exact L2|]. split; [|split; [exact F2|]].
    + apply (nth_ext _ _ f0 f0).
      * rewrite skipn_length. unfold zlen in *. lia.
      * intros i Hi. rewrite FrontRun.nth_skipn'. specialize (V1 (Z.of_nat i)). unfold at_ in V1. rewrite Nat2Z.id in V1. rewrite V1 by (unfold zlen in *; lia). f_equal. lia.
    + rewrite NV in V2. eapply Rle_trans; [|exact V2]. apply Req_le, norm_ext. intros k Hk. f_equal. unfold mdct. f_equal. apply sum_ext. intros n Hn. rewrite WV, TV by lia. reflexivity.
Qed.

Lemma inverse_code dt sr src d y : has_transform dt sr -> (c_ns dt sr <= zlen (inp src y))%Z -> zlen d = c_nd dt sr -> (c_ns dt sr <= zlen y)%Z ->
  let ns := c_ns dt sr in let nd := c_nd dt sr in
  (forall n, (0 <= n < ns)%Z -> fin (at_ f0 (inp src y) n)) -> Forall fin d ->
  let X := fun n => val (at_ f0 (inp src y) n) in let D := fun n => val (at_ f0 d n) in
  let v := fun n => the_win dt sr (2 * ns - 1 - n) * imdct ns X n in
  norm ns X <= p2 60 -> norm nd D <= p2 60 ->
  exists d' y', inv dt sr sr src d y = Some (d', y') /\ zlen d' = zlen d /\ zlen y' = zlen y /\ Forall fin d' /\
    (forall q, (0 <= q < ns)%Z -> fin (at_ f0 y' q)) /\
    norm nd (fun q => val (at_ f0 d' q) - v (2 * ns - nd + q)%Z) <= 247 * ru * (norm ns X + tiny3) /\
    norm ns (fun q => val (at_ f0 y' q) - ((if (q <? nd)%Z then D q else 0) + v (ns - nd + q)%Z)) <= 247 * ru * (norm ns X + tiny3) + 4 * ru * norm nd D.
Proof.
  intros Hc Lx Ld Ly ns nd Fx Fd X D v HX HD. destruct (cfg_ok dt sr Hc) as (Q & HQ & Ha & Hb & EP & Ens & Ef & Hnd & Hu & HM). pose proof (shapes_f32 dt sr Hc) as Hs. unfold shapes in Hs. cbv zeta in Hs. destruct Hs as (S1 & S2 & S3 & S4).
  assert (Hb5 : (0 <= exp2 (c_ns dt sr / 2) <= 5)%Z) by (destruct (exp3 (c_ns dt sr / 2) =? 2)%Z; lia).
  assert (Lb : zlen (repeat junk (Z.to_nat MAX_NS)) = MAX_NS) by (unfold zlen; rewrite repeat_length; reflexivity).
  pose proof (code_near_rot dt sr Hc) as NR. pose proof (cost_cfg dt sr Hc) as CC. fold ns in Lx, Ly, Ha, Hb, Hb5, EP, Ens, Ef, Hnd, Hu, HM, S1, S2, S3, S4, NR, CC. fold nd in Ld, Hnd, Hu, S4.
  assert (WV : forall n, (0 <= n)%Z -> val (at_ f0 (code_win c47 dt sr) n) = the_win dt sr n) by (intros n Hn; apply (win_at dt sr n Hc Hn)).
  pose proof (HF dt sr Hc) as HB. fold ns in HB. rewrite EP in HB. pose proof (inverse_err FFT (code_rot c80 dt sr) (code_win c47 dt sr) Q nd HQ) as FE. cbv zeta in FE. rewrite <- Ens in FE.
  destruct (FE ltac:(unfold MAX_NS in HM; lia) HB ltac:(lia) ltac:(lia) NR ltac:(rewrite <- EP; exact CC) ltac:(lia) Hu S4 ltac:(intros n Hn; apply (win_at dt sr n Hc Hn))
    (ratio ns ns) src d y (repeat junk (Z.to_nat MAX_NS))) as (d' & y' & E & L1 & L2 & F1 & F2 & V1 & V2); clear FE; try lia; try assumption.
  - intros n Hn. apply (at_Forall fin); [exact Fd|lia].
  - exists d', y'. split; [exact E|]. split; [exact L1|]. split; [exact L2|]. split; [apply (Forall_at _ d' nd); [lia|exact F1]|]. split; [exact F2|]. split.
    + eapply Rle_trans; [|exact V1]. apply Req_le, norm_ext. intros q Hq. unfold v. rewrite WV by lia. do 3 f_equal. lia.
    + eapply Rle_trans; [|exact V2]. apply Req_le, norm_ext. intros q Hq. unfold v. rewrite WV by lia. do 4 f_equal. lia.
Qed.
End Code.

(** The FFT of src/mdct.c. *)
Definition fft_c := fft f0 Add Sub Mul (code_fft c80).
Lemma fft_c_ok dt sr : has_transform dt sr -> fft_bound fft_c (c_ns dt sr / 2).
Proof.
  intros Hc. destruct (cfg_ok dt sr Hc) as (Q & HQ & Ha & Hb & EP & Ens & Ef & Hnd & Hu & HM). pose proof (shapes_f32 dt sr Hc) as Hs. unfold shapes in Hs. cbv zeta in Hs. destruct Hs as (S1 & _). unfold MAX_NS in HM.
  apply (fft_bound_c _ (exp3 (c_ns dt sr / 2)) (exp2 (c_ns dt sr / 2))); [lia|destruct (exp3 (c_ns dt sr / 2) =? 2)%Z; lia|lia|lia|exact S1|apply (code_near_fft _ _ S1)].
Qed.
Lemma forward_fwd nan junk dt srp sr x d y : forward nan junk dt srp sr x d y = fwd fft_c junk dt srp sr x d y.
Proof. reflexivity. Qed.
Lemma inverse_inv nan junk dt srp sr src d y : inverse (f32_ops nan) junk dt srp sr src d y = inv fft_c junk dt srp sr src d y.
Proof. reflexivity. Qed.
