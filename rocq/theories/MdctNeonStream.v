(** * NEON transform: configurations *)
From Coq Require Import Reals ZArith List Bool Lia Lra ZifyBool Ring.
From Verif Require Import Base BaseProofs ConfigModel MdctModel MdctProofs MdctFft MdctSpec MdctMath MdctExact MdctStream MdctNeonModel MdctNeonProofs.
Import ListNotations.
Local Open Scope Z_scope.

(** neon_fft_5 takes two transforms at a time: their number is even for every configuration. *)
Lemma cfg_even dt sr : has_transform dt sr -> 1 <= exp2 (c_ns dt sr / 2) <= 5.
Proof.
  intros Hc. destruct (cfg_ok dt sr Hc) as (Q & HQ & Ha & Hb & EP & Ens & Ef & _). set (a := exp3 _) in *. set (b := exp2 _) in *. clearbody a b.
  assert (Hb5 : 0 <= b <= 5) by (destruct (a =? 2); lia). split; [|lia]. destruct (Z.eq_dec b 0) as [->|N]; [|lia]. exfalso. unfold fft_size in Ef.
  change (2 ^ 0) with 1 in Ef. assert (C : a = 0 \/ a = 1 \/ a = 2) by lia. destruct C as [->|[->| ->]]; [change (3 ^ 0) with 1 in Ef|change (3 ^ 1) with 3 in Ef|change (3 ^ 2) with 9 in Ef]; lia.
Qed.

(** ** Accesses, whatever the numbers *)
Section Safe.
Context {F : Type} (f0 : F) (add sub mul : F -> F -> F) (opp : F -> F) (fma fms : F -> F -> F -> F).

Lemma neon_forward_safe T rot win dt sr ns_dst scale x d y buf :
  has_transform dt sr -> shapes T rot win dt sr ->
  c_ns dt sr <= zlen x -> c_nd dt sr <= zlen d -> c_ns dt sr <= zlen y -> c_ns dt sr <= zlen buf ->
  0 <= ns_dst -> ns_dst mod 4 = 0 -> ns_dst <= zlen y ->
  exists d' y', neon_mdct_forward f0 add sub mul opp fma fms T rot (c_ns dt sr) (c_nd dt sr) win ns_dst scale x d y buf = Some (d', y') /\
    zlen d' = zlen d /\ zlen y' = zlen y /\ (forall q, 0 <= q < c_nd dt sr -> at_ f0 d' q = at_ f0 x (c_ns dt sr - c_nd dt sr + q)).
Proof.
  intros Hc Hs Lx Ld Ly Lb H0 H4 Ldst. destruct (cfg_ok dt sr Hc) as (Q & HQ & Ha & Hb & EP & Ens & Ef & Hnd & Hu & _).
  unfold shapes in Hs. cbv zeta in Hs. destruct Hs as (S1 & S2 & S3 & S4).
  pose proof (cfg_even dt sr Hc) as Hb5. clear Hb.
  set (a := exp3 _) in *. set (b := exp2 _) in *. unfold neon_mdct_forward. rewrite EP in *. rewrite Ens in *. set (nd := c_nd dt sr) in *. clearbody a b nd. clear Hc dt sr Ens.
  destruct (mdct_window_ok f0 add sub mul (2 * Q) nd win x d buf) as (d' & u & E1 & Ld' & Lu & Vd & _); try lia; [exact Hu|exists Q; reflexivity|].
  rewrite E1. cbn [bind].
  destruct (mdct_pre_ok f0 add sub mul opp rot None u Q) as (u2 & E2 & L2 & _); try (cbn [inp]; lia). rewrite E2. cbn [bind].
  rewrite <- Ef.
  destruct (neon_fft_safe f0 add sub mul opp fma fms T a b u2 y ltac:(lia) ltac:(lia) S1 ltac:(lia) ltac:(lia)) as (is1 & cur & other & E3 & L3a & L3b). rewrite E3. cbn [bind]. rewrite Ef in *.
  assert (PO : exists y', (if is1 then mdct_post_fft f0 add sub mul rot None cur else mdct_post_fft f0 add sub mul rot (Some cur) other) = Some y' /\ zlen y' = zlen y).
  { destruct is1.
    - destruct (mdct_post_ok f0 add sub mul rot None cur Q) as (y' & E & L & _); try (cbn [inp]; lia). exists y'. split; [exact E|lia].
    - destruct (mdct_post_ok f0 add sub mul rot (Some cur) other Q) as (y' & E & L & _); try (cbn [inp]; lia). exists y'. split; [exact E|lia]. }
  destruct PO as (y' & E4 & L4). rewrite E4. cbn [bind]. destruct (2 * (2 * Q) =? ns_dst).
  - cbn [bind]. exists d', y'. auto.
  - destruct (rescale_ok f0 mul y' ns_dst scale (ns_dst / 4)) as (y2 & E5 & L5 & _); [apply Z.div_pos; lia|Z.div_mod_to_equations; lia|lia|].
    rewrite E5. cbn [bind]. exists d', y2. split; [reflexivity|]. split; [exact Ld'|]. split; [lia|exact Vd].
Qed.

Lemma neon_inverse_safe T rot win dt sr ns_src scale src d y buf :
  has_transform dt sr -> shapes T rot win dt sr ->
  c_ns dt sr <= zlen (inp src y) -> c_nd dt sr <= zlen d -> c_ns dt sr <= zlen y -> c_ns dt sr <= zlen buf ->
  exists d' y', neon_mdct_inverse f0 add sub mul opp fma fms T rot (c_ns dt sr) (c_nd dt sr) win ns_src scale src d y buf = Some (d', y') /\
    zlen d' = zlen d /\ zlen y' = zlen y.
Proof.
  intros Hc Hs Lx Ld Ly Lb. destruct (cfg_ok dt sr Hc) as (Q & HQ & Ha & Hb & EP & Ens & Ef & Hnd & Hu & _).
  unfold shapes in Hs. cbv zeta in Hs. destruct Hs as (S1 & S2 & S3 & S4).
  pose proof (cfg_even dt sr Hc) as Hb5. clear Hb.
  set (a := exp3 _) in *. set (b := exp2 _) in *. unfold neon_mdct_inverse. rewrite EP in *. rewrite Ens in *. set (nd := c_nd dt sr) in *. clearbody a b nd. clear Hc dt sr Ens.
  destruct (imdct_pre_ok f0 add sub mul opp rot src y Q) as (u & E1 & L1 & _); try lia. rewrite E1. cbn [bind].
  rewrite <- Ef.
  destruct (neon_fft_safe f0 add sub mul opp fma fms T a b u buf ltac:(lia) ltac:(lia) S1 ltac:(lia) ltac:(lia)) as (is1 & cur & other & E3 & L3a & L3b). rewrite E3. cbn [bind]. rewrite Ef in *.
  assert (PO : exists h, (if is1 then imdct_post_fft f0 add sub mul rot None cur else imdct_post_fft f0 add sub mul rot (Some cur) other) = Some h /\ zlen h = zlen buf).
  { destruct is1.
    - destruct (imdct_post_ok f0 add sub mul rot None cur Q) as (y' & E & L & _); try (cbn [inp]; lia). exists y'. split; [exact E|lia].
    - destruct (imdct_post_ok f0 add sub mul rot (Some cur) other Q) as (y' & E & L & _); try (cbn [inp]; lia). exists y'. split; [exact E|lia]. }
  destruct PO as (h & E4 & L4). rewrite E4. cbn [bind].
  assert (RS : exists h2, (if 2 * (2 * Q) =? ns_src then Some h else rescale f0 mul h (2 * (2 * Q)) scale) = Some h2 /\ zlen h2 = zlen buf).
  { destruct (2 * (2 * Q) =? ns_src); [exists h; auto|].
    destruct (rescale_ok f0 mul h (2 * (2 * Q)) scale Q ltac:(lia) ltac:(lia) ltac:(lia)) as (h2 & E5 & L5 & _). exists h2. split; [exact E5|lia]. }
  destruct RS as (h2 & E5 & L5). rewrite E5. cbn [bind].
  destruct (imdct_window_ok f0 add sub mul (2 * Q) nd win h2 d (if is1 then other else cur)) as (d' & y' & E6 & Ld' & Ly' & _); try lia; [exact Hu|exists Q; reflexivity|].
  exists d', y'. split; [exact E6|]. split; [exact Ld'|]. lia.
Qed.

(** ** Exact arithmetic: the portable results *)
Variable f1 : F.
Hypothesis RT : ring_theory f0 f1 add mul sub opp (@eq F).
Hypothesis Hfma : forall a b c, fma a b c = add a (mul b c).
Hypothesis Hfms : forall a b c, fms a b c = sub a (mul b c).

Lemma neon_fft_cfg T dt sr y0 y1 : has_transform dt sr -> shape_fft T (exp3 (c_ns dt sr / 2)) (exp2 (c_ns dt sr / 2)) ->
  c_ns dt sr <= zlen y0 -> c_ns dt sr <= zlen y1 ->
  neon_fft f0 add sub opp fma fms T (c_ns dt sr / 2) y0 y1 = fft f0 add sub mul T (c_ns dt sr / 2) y0 y1.
Proof.
  intros Hc Sh L0 L1. pose proof (cfg_even dt sr Hc) as Hb. destruct (cfg_ok dt sr Hc) as (Q & HQ & Ha & _ & EP & Ens & Ef & _).
  rewrite EP in *. rewrite <- Ef. eapply neon_fft_eq; try eassumption; lia.
Qed.

Lemma neon_forward_eq T rot win dt sr ns_dst scale x d y buf :
  has_transform dt sr -> shapes T rot win dt sr ->
  c_ns dt sr <= zlen x -> c_nd dt sr <= zlen d -> c_ns dt sr <= zlen y -> c_ns dt sr <= zlen buf ->
  neon_mdct_forward f0 add sub mul opp fma fms T rot (c_ns dt sr) (c_nd dt sr) win ns_dst scale x d y buf =
  mdct_forward f0 add sub mul opp T rot (c_ns dt sr) (c_nd dt sr) win ns_dst scale x d y buf.
Proof.
  intros Hc Hs Lx Ld Ly Lb. destruct (cfg_ok dt sr Hc) as (Q & HQ & Ha & Hb & EP & Ens & Ef & Hnd & Hu & _).
  unfold shapes in Hs. cbv zeta in Hs. destruct Hs as (S1 & S2 & S3 & S4). unfold neon_mdct_forward, mdct_forward.
  destruct (mdct_window_ok f0 add sub mul (2 * Q) (c_nd dt sr) win x d buf) as (d' & u & E1 & Ld' & Lu & Vd & _); try lia; [rewrite <- Ens; exact Hu|exists Q; reflexivity|].
  rewrite <- Ens in E1. rewrite E1. cbn [bind].
  destruct (mdct_pre_ok f0 add sub mul opp rot None u Q) as (u2 & E2 & L2 & _); try (cbn [inp]; lia). rewrite E2. cbn [bind].
  rewrite neon_fft_cfg by (first [assumption|lia]). reflexivity.
Qed.

Lemma neon_inverse_eq T rot win dt sr ns_src scale src d y buf :
  has_transform dt sr -> shapes T rot win dt sr ->
  c_ns dt sr <= zlen (inp src y) -> c_ns dt sr <= zlen y -> c_ns dt sr <= zlen buf ->
  neon_mdct_inverse f0 add sub mul opp fma fms T rot (c_ns dt sr) (c_nd dt sr) win ns_src scale src d y buf =
  mdct_inverse f0 add sub mul opp T rot (c_ns dt sr) (c_nd dt sr) win ns_src scale src d y buf.
Proof.
  intros Hc Hs Lx Ly Lb. destruct (cfg_ok dt sr Hc) as (Q & HQ & Ha & Hb & EP & Ens & Ef & Hnd & Hu & _).
  unfold shapes in Hs. cbv zeta in Hs. destruct Hs as (S1 & S2 & S3 & S4). unfold neon_mdct_inverse, mdct_inverse.
  destruct (imdct_pre_ok f0 add sub mul opp rot src y Q) as (u & E1 & L1 & _); try lia. rewrite E1. cbn [bind].
  rewrite neon_fft_cfg by (first [assumption|lia]). reflexivity.
Qed.
End Safe.
