(** * Transform: configurations, and streams of frames *)
From Coq Require Import Reals ZArith List Bool Lia Lra ZifyBool.
From Verif Require Import Base BaseProofs ConfigModel MdctModel MdctProofs MdctFft MdctSpec MdctMath MdctExact.
Import ListNotations.
Local Open Scope Z_scope.

(** ** Configurations *)

(** The durations and sample rates with a transform: src/tables.c lines 4040-4069. *)
Definition has_transform (dt sr : Z) : Prop := 0 <= dt < 4 /\ 0 <= sr < 7 /\ (dt = DT_7M5 -> sr < SRATE_48K_HR).

(** The exponents of 3 and 2 in the number of points of the FFT. *)
Definition exp3 (P : Z) : Z := if P mod 9 =? 0 then 2 else if P mod 3 =? 0 then 1 else 0.
Definition exp2 (P : Z) : Z := Z.log2 (P / (5 * 3 ^ exp3 P)).

Definition cfg_check (dt sr : Z) : bool :=
  let ns := c_ns dt sr in let nd := c_nd dt sr in let P := ns / 2 in let a := exp3 P in let b := exp2 P in
  (0 <=? a) && (a <=? 2) && (0 <=? b) && (b <=? (if a =? 2 then 2 else 5)) && (0 <? P / 2) && (fft_size a b =? 2 * (P / 2)) && (ns =? 2 * (2 * (P / 2))) &&
  (2 * (P / 2) <=? nd) && (nd <=? ns) && (ns - nd =? 2 * ((ns - nd) / 2)) && (ns <=? MAX_NS).
Lemma cfg_all : forallb (fun dt => forallb (fun sr => ((dt =? 2) && (5 <=? sr)) || cfg_check dt sr) [0; 1; 2; 3; 4; 5; 6]) [0; 1; 2; 3] = true.
Proof. vm_compute. reflexivity. Qed.
Lemma cfg_ok dt sr : has_transform dt sr ->
  let ns := c_ns dt sr in let nd := c_nd dt sr in let P := ns / 2 in
  exists Q, 0 < Q /\ 0 <= exp3 P <= 2 /\ 0 <= exp2 P <= (if exp3 P =? 2 then 2 else 5) /\ P = 2 * Q /\ ns = 2 * (2 * Q) /\ fft_size (exp3 P) (exp2 P) = 2 * Q /\
    2 * Q <= nd <= ns /\ (exists u, ns - nd = 2 * u) /\ ns <= MAX_NS.
Proof.
  intros (Hd & Hs & H7). pose proof cfg_all as A. rewrite forallb_forall in A.
  assert (Id : In dt [0; 1; 2; 3]). { assert (C : dt = 0 \/ dt = 1 \/ dt = 2 \/ dt = 3) by lia. cbn [In]. intuition. }
  assert (Is : In sr [0; 1; 2; 3; 4; 5; 6]). { assert (C : sr = 0 \/ sr = 1 \/ sr = 2 \/ sr = 3 \/ sr = 4 \/ sr = 5 \/ sr = 6) by lia. cbn [In]. intuition. }
  specialize (A dt Id). cbv beta in A. rewrite forallb_forall in A. specialize (A sr Is). cbv beta in A.
  assert (N : (dt =? 2) && (5 <=? sr) = false) by (unfold DT_7M5, SRATE_48K_HR in H7; lia). rewrite N, orb_false_l in A.
  unfold cfg_check in A. cbv zeta in *. clear - A.
  set (ns := c_ns dt sr) in *. set (nd := c_nd dt sr) in *. set (a := exp3 (ns / 2)) in *. set (b := exp2 (ns / 2)) in *. set (f := fft_size a b) in *.
  set (Q := ns / 2 / 2) in *. set (v := (ns - nd) / 2) in *. exists Q.
  assert (EQ : ns = 2 * (2 * Q)) by lia. assert (ns / 2 = 2 * Q) as EP by (rewrite EQ, Z.mul_comm; apply Z.div_mul; lia).
  rewrite EP. clearbody a b f Q v nd. rewrite !andb_true_iff in A. clear EP. revert EQ A. generalize ns. clear ns. intros ns EQ A.
  repeat match goal with H : _ /\ _ |- _ => destruct H end.
  repeat split; try lia. exists v. lia.
Qed.

(** ** Accesses, whatever the numbers *)
Section Safe.
Context {F : Type} (f0 : F) (add sub mul : F -> F -> F) (opp : F -> F).

(** The sizes of the tables of a configuration. *)
Definition shapes (T : @fft_tables F) (rot : @mdct_rot F) (win : list F) (dt sr : Z) : Prop :=
  let P := c_ns dt sr / 2 in
  shape_fft T (exp3 P) (exp2 P) /\ r_n4 rot = P /\ zlen (r_w rot) = P /\ zlen win = c_ns dt sr + c_nd dt sr.

Lemma forward_safe T rot win dt sr ns_dst scale x d y buf :
  has_transform dt sr -> shapes T rot win dt sr ->
  c_ns dt sr <= zlen x -> c_nd dt sr <= zlen d -> c_ns dt sr <= zlen y -> c_ns dt sr <= zlen buf ->
  0 <= ns_dst -> ns_dst mod 4 = 0 -> ns_dst <= zlen y ->
  exists d' y', mdct_forward f0 add sub mul opp T rot (c_ns dt sr) (c_nd dt sr) win ns_dst scale x d y buf = Some (d', y') /\
    zlen d' = zlen d /\ zlen y' = zlen y /\ (forall q, 0 <= q < c_nd dt sr -> at_ f0 d' q = at_ f0 x (c_ns dt sr - c_nd dt sr + q)).
Proof.
  intros Hc Hs Lx Ld Ly Lb H0 H4 Ldst. destruct (cfg_ok dt sr Hc) as (Q & HQ & Ha & Hb & EP & Ens & Ef & Hnd & Hu & _).
  unfold shapes in Hs. cbv zeta in Hs. destruct Hs as (S1 & S2 & S3 & S4).
  assert (Hb5 : 0 <= exp2 (c_ns dt sr / 2) <= 5) by (destruct (exp3 (c_ns dt sr / 2) =? 2); lia). clear Hb.
  set (a := exp3 _) in *. set (b := exp2 _) in *. unfold mdct_forward. rewrite EP in *. rewrite Ens in *. set (nd := c_nd dt sr) in *. clearbody a b nd. clear Hc dt sr Ens.
  destruct (mdct_window_ok f0 add sub mul (2 * Q) nd win x d buf) as (d' & u & E1 & Ld' & Lu & Vd & _); try lia; [exact Hu|exists Q; reflexivity|].
  rewrite E1. cbn [bind].
  destruct (mdct_pre_ok f0 add sub mul opp rot None u Q) as (u2 & E2 & L2 & _); try (cbn [inp]; lia). rewrite E2. cbn [bind].
  rewrite <- Ef.
  destruct (fft_safe f0 add sub mul T a b u2 y ltac:(lia) ltac:(lia) S1 ltac:(lia) ltac:(lia)) as (is1 & cur & other & E3 & L3a & L3b). rewrite E3. cbn [bind]. rewrite Ef in *.
  assert (PO : exists y', (if is1 then mdct_post_fft f0 add sub mul rot None cur else mdct_post_fft f0 add sub mul rot (Some cur) other) = Some y' /\ zlen y' = zlen y).
  { destruct is1.
    - destruct (mdct_post_ok f0 add sub mul rot None cur Q) as (y' & E & L & _); try (cbn [inp]; lia). exists y'. split; [exact E|lia].
    - destruct (mdct_post_ok f0 add sub mul rot (Some cur) other Q) as (y' & E & L & _); try (cbn [inp]; lia). exists y'. split; [exact E|lia]. }
  destruct PO as (y' & E4 & L4). rewrite E4. cbn [bind]. destruct (2 * (2 * Q) =? ns_dst).
  - cbn [bind]. exists d', y'. auto.
  - destruct (rescale_ok f0 mul y' ns_dst scale (ns_dst / 4)) as (y2 & E5 & L5 & _); [apply Z.div_pos; lia|Z.div_mod_to_equations; lia|lia|].
    rewrite E5. cbn [bind]. exists d', y2. split; [reflexivity|]. split; [exact Ld'|]. split; [lia|exact Vd].
Qed.

Lemma inverse_safe T rot win dt sr ns_src scale src d y buf :
  has_transform dt sr -> shapes T rot win dt sr ->
  c_ns dt sr <= zlen (inp src y) -> c_nd dt sr <= zlen d -> c_ns dt sr <= zlen y -> c_ns dt sr <= zlen buf ->
  exists d' y', mdct_inverse f0 add sub mul opp T rot (c_ns dt sr) (c_nd dt sr) win ns_src scale src d y buf = Some (d', y') /\
    zlen d' = zlen d /\ zlen y' = zlen y.
Proof.
  intros Hc Hs Lx Ld Ly Lb. destruct (cfg_ok dt sr Hc) as (Q & HQ & Ha & Hb & EP & Ens & Ef & Hnd & Hu & _).
  unfold shapes in Hs. cbv zeta in Hs. destruct Hs as (S1 & S2 & S3 & S4).
  assert (Hb5 : 0 <= exp2 (c_ns dt sr / 2) <= 5) by (destruct (exp3 (c_ns dt sr / 2) =? 2); lia). clear Hb.
  set (a := exp3 _) in *. set (b := exp2 _) in *. unfold mdct_inverse. rewrite EP in *. rewrite Ens in *. set (nd := c_nd dt sr) in *. clearbody a b nd. clear Hc dt sr Ens.
  destruct (imdct_pre_ok f0 add sub mul opp rot src y Q) as (u & E1 & L1 & _); try lia. rewrite E1. cbn [bind].
  rewrite <- Ef.
  destruct (fft_safe f0 add sub mul T a b u buf ltac:(lia) ltac:(lia) S1 ltac:(lia) ltac:(lia)) as (is1 & cur & other & E3 & L3a & L3b). rewrite E3. cbn [bind]. rewrite Ef in *.
  assert (PO : exists h, (if is1 then imdct_post_fft f0 add sub mul rot None cur else imdct_post_fft f0 add sub mul rot (Some cur) other) = Some h /\ zlen h = zlen buf).
  { destruct is1.
    - destruct (imdct_post_ok f0 add sub mul rot None cur Q) as (y' & E & L & _); try (cbn [inp]; lia). exists y'. split; [exact E|lia].
    - destruct (imdct_post_ok f0 add sub mul rot (Some cur) other Q) as (y' & E & L & _); try (cbn [inp]; lia). exists y'. split; [exact E|lia]. }
  destruct PO as (h & E4 & L4). rewrite E4. cbn [bind].
  assert (RS : exists h2, (if 2 * (2 * Q) =? ns_src then Some h else rescale f0 mul h (2 * (2 * Q)) scale) = Some h2 /\ zlen h2 = zlen buf).
  { destruct (2 * (2 * Q) =? ns_src); [exists h; auto|].
    destruct (rescale_ok f0 mul h (2 * (2 * Q)) scale Q ltac:(lia) ltac:(lia) ltac:(lia)) as (h2 & E5 & L5 & _). exists h2. split; [exact E5|lia]. }
  destruct RS as (h2 & E5 & L5). rewrite E5. cbn [bind].
  destruct (imdct_window_ok f0 add sub mul (2 * Q) nd win h2 d (if is1 then other else cur)) as (d' & y' & E6 & Ld' & Ly' & _); try lia; [exact Hu|exists Q; reflexivity|].
  exists d', y'. split; [exact E6|]. split; [exact Ld'|]. lia.
Qed.
End Safe.

Local Open Scope R_scope.

(** ** Exact tables *)
Definition exact_tables (T : @fft_tables R) : Prop := exact_fft T 0 5 /\ exact_fft T 1 5 /\ exact_fft T 2 2.
Lemma exact_le T a b b' : (b' <= b)%Z -> exact_fft T a b -> exact_fft T a b'.
Proof. intros H (A & B & C). split; [exact A|]. split; [exact B|]. intros j Hj. apply C. lia. Qed.
Lemma exact_cfg T dt sr : has_transform dt sr -> exact_tables T -> exact_fft T (exp3 (c_ns dt sr / 2)) (exp2 (c_ns dt sr / 2)).
Proof.
  intros Hc (A & B & C). destruct (cfg_ok dt sr Hc) as (Q & _ & Ha & Hb & _). set (a := exp3 _) in *. set (b := exp2 _) in *. clearbody a b.
  assert (a = 0 \/ a = 1 \/ a = 2)%Z as [->|[->| ->]] by lia; cbn [Z.eqb Pos.eqb] in Hb; (eapply exact_le; [|eassumption]); lia.
Qed.

(** ** Specification of each transform *)
Lemma forward_mdct T rot win dt sr ns_dst scale x d y buf :
  has_transform dt sr -> exact_tables T -> exact_rot rot (c_ns dt sr) -> zlen win = (c_ns dt sr + c_nd dt sr)%Z ->
  (c_ns dt sr <= zlen x)%Z -> (c_nd dt sr <= zlen d)%Z -> (c_ns dt sr <= zlen y)%Z -> (c_ns dt sr <= zlen buf)%Z ->
  (0 <= ns_dst)%Z -> (ns_dst mod 4 = 0)%Z -> (ns_dst <= zlen y)%Z ->
  exists d' y', rforward T rot (c_ns dt sr) (c_nd dt sr) win ns_dst scale x d y buf = Some (d', y') /\ zlen d' = zlen d /\ zlen y' = zlen y /\
    (forall q, (0 <= q < c_nd dt sr)%Z -> rat d' q = rat x (c_ns dt sr - c_nd dt sr + q)) /\
    (forall k, (0 <= k < c_ns dt sr)%Z -> rat y' k = (if (c_ns dt sr =? ns_dst)%Z then 1 else if (k <? ns_dst)%Z then scale else 1) * mdct (c_ns dt sr) (rat win) (tin 0 (c_nd dt sr) d x) k).
Proof.
  intros Hc Ht Hr Lw Lx Ld Ly Lb H0 H4 Ldst. destruct (cfg_ok dt sr Hc) as (Q & HQ & Ha & Hb & EP & Ens & Ef & Hnd & Hu & _).
  pose proof (exact_cfg T dt sr Hc Ht) as Ex. assert (Hb5 : (0 <= exp2 (c_ns dt sr / 2) <= 5)%Z) by (destruct (exp3 (c_ns dt sr / 2) =? 2)%Z; lia). clear Hb.
  set (a := exp3 _) in *. set (b := exp2 _) in *. rewrite Ens in *. set (nd := c_nd dt sr) in *. clearbody a b nd.
  apply (forward_ok T rot a b Q nd win); try assumption; try lia. exists (ns_dst / 4)%Z. split; [apply Z.div_pos; lia|Z.div_mod_to_equations; lia].
Qed.

Lemma inverse_imdct T rot win dt sr ns_src scale src d y buf :
  has_transform dt sr -> exact_tables T -> exact_rot rot (c_ns dt sr) -> zlen win = (c_ns dt sr + c_nd dt sr)%Z ->
  (c_ns dt sr <= zlen (inp src y))%Z -> (c_nd dt sr <= zlen d)%Z -> (c_ns dt sr <= zlen y)%Z -> (c_ns dt sr <= zlen buf)%Z ->
  let ns := c_ns dt sr in let nd := c_nd dt sr in
  let X := rat (inp src y) in let g := if (ns =? ns_src)%Z then 1 else scale in
  let v := fun n => g * (rat win (2 * ns - 1 - n) * imdct ns X n) in
  exists d' y', rinverse T rot ns nd win ns_src scale src d y buf = Some (d', y') /\ zlen d' = zlen d /\ zlen y' = zlen y /\
    (forall q, (0 <= q < nd)%Z -> rat d' q = v (2 * ns - nd + q)%Z) /\
    (forall q, (0 <= q < ns)%Z -> rat y' q = (if (q <? nd)%Z then rat d q else 0) + v (ns - nd + q)%Z).
Proof.
  intros Hc Ht Hr Lw Lx Ld Ly Lb. cbv zeta. destruct (cfg_ok dt sr Hc) as (Q & HQ & Ha & Hb & EP & Ens & Ef & Hnd & Hu & _).
  pose proof (exact_cfg T dt sr Hc Ht) as Ex. assert (Hb5 : (0 <= exp2 (c_ns dt sr / 2) <= 5)%Z) by (destruct (exp3 (c_ns dt sr / 2) =? 2)%Z; lia). clear Hb.
  set (a := exp3 _) in *. set (b := exp2 _) in *. rewrite Ens in *. set (nd := c_nd dt sr) in *. clearbody a b nd.
  destruct (inverse_ok T rot a b Q nd win ltac:(lia) ltac:(lia) HQ Ef Ex Hr Hnd Hu Lw ns_src scale src d y buf Lx Ld Ly Lb) as (d' & y' & E & L1 & L2 & V1 & V2).
  cbv zeta in V1, V2. exists d', y'. split; [exact E|]. split; [exact L1|]. split; [exact L2|]. split.
  - intros q Hq. rewrite V1 by exact Hq. do 3 f_equal. lia.
  - intros q Hq. rewrite V2 by exact Hq. do 4 f_equal. lia.
Qed.

(** ** Streams: the encoder transform of each frame, then the decoder one *)
Fixpoint chain (T : @fft_tables R) (rot : @mdct_rot R) (ns nd : Z) (win ybuf zbuf : list R) (frames : list (list R)) (de dd : list R) : option (list (list R)) :=
  match frames with
  | [] => Some []
  | x :: r =>
    do e <- rforward T rot ns nd win ns 1 x de ybuf zbuf;
    do o <- rinverse T rot ns nd win ns 1 (Some (snd e)) dd ybuf zbuf;
    do os <- chain T rot ns nd win ybuf zbuf r (fst e) (fst o);
    Some (snd o :: os)
  end.

Section Chain.
Variables (T : @fft_tables R) (rot : @mdct_rot R) (dt sr : Z) (win ybuf zbuf : list R) (S : Z -> R).
Let ns := c_ns dt sr.
Let nd := c_nd dt sr.
Hypothesis Hc : has_transform dt sr.
Hypothesis Ht : exact_tables T.
Hypothesis Hr : exact_rot rot ns.
Hypothesis Lw : zlen win = (ns + nd)%Z.
Hypothesis Ly : (ns <= zlen ybuf)%Z.
Hypothesis Lz : (ns <= zlen zbuf)%Z.
Let w := rat win.

Lemma w_zero n : (ns + nd <= n)%Z -> w n = 0.
Proof. intros H. unfold w, rat, at_. apply nth_overflow. unfold zlen in Lw. lia. Qed.

(** The delayed samples of the decoder. *)
Definition overlap (i q : Z) : R :=
  w (nd - 1 - q)%Z * (w (2 * ns - nd + q)%Z * S ((i - 1) * ns - nd + (2 * ns - nd + q))%Z +
                      w (3 * ns - 1 - (2 * ns - nd + q))%Z * S ((i - 1) * ns - nd + (3 * ns - 1 - (2 * ns - nd + q)))%Z).

Lemma chain_ok frames : forall i de dd,
  (forall j x, nth_error frames j = Some x -> (ns <= zlen x)%Z /\ forall q, (0 <= q < ns)%Z -> rat x q = S ((i + Z.of_nat j) * ns + q)%Z) ->
  (nd <= zlen de)%Z -> (nd <= zlen dd)%Z ->
  (forall q, (0 <= q < nd)%Z -> rat de q = S (i * ns - nd + q)%Z) -> (forall q, (0 <= q < nd)%Z -> rat dd q = overlap i q) ->
  exists os, chain T rot ns nd win ybuf zbuf frames de dd = Some os /\ length os = length frames /\
    forall j o, nth_error os j = Some o -> zlen o = zlen ybuf /\ forall q, (0 <= q < ns)%Z ->
      rat o q = window_gain ns w ((ns - nd + q) mod ns) * S ((i + Z.of_nat j) * ns + q - (2 * nd - ns))%Z.
Proof.
  destruct (cfg_ok dt sr Hc) as (Q & HQ & _ & _ & _ & Ens & _ & Hnd & _). fold ns nd in Ens, Hnd.
  induction frames as [|x r IH]; intros i de dd Hf Le Ld He Hd; cbn [chain].
  { exists []. split; [reflexivity|]. split; [reflexivity|]. intros [|j] o H; discriminate H. }
  destruct (Hf 0%nat x eq_refl) as [Lx Vx]. rewrite Z.add_0_r in Vx.
  destruct (forward_mdct T rot win dt sr ns 1 x de ybuf zbuf Hc Ht Hr Lw Lx Le Ly Lz) as (de' & X & E1 & L1 & L1' & V1 & V1').
  { lia. } { rewrite Ens. replace (2 * (2 * Q))%Z with (Q * 4)%Z by lia. apply Z.mod_mul. lia. } { exact Ly. }
  fold ns nd in E1, V1, V1'. rewrite E1. cbn [bind fst snd]. rewrite Z.eqb_refl in V1'.
  destruct (inverse_imdct T rot win dt sr ns 1 (Some X) dd ybuf zbuf Hc Ht Hr Lw) as (dd' & o & E2 & L2 & L2' & V2 & V2').
  { cbn [inp]. rewrite L1'. exact Ly. } { exact Ld. } { exact Ly. } { exact Lz. }
  fold ns nd in E2, V2, V2'. rewrite E2. cbn [bind fst snd]. cbn [inp] in V2, V2'. rewrite Z.eqb_refl in V2, V2'.
  pose (t n := S (i * ns - nd + n)%Z).
  assert (IM : forall n, (0 <= n < 2 * ns)%Z -> imdct ns (rat X) n =
     if (n <? ns)%Z then w n * t n - w (ns - 1 - n)%Z * t (ns - 1 - n)%Z else w n * t n + w (3 * ns - 1 - n)%Z * t (3 * ns - 1 - n)%Z).
  { intros n Hn. transitivity (imdct ns (mdct ns w t) n).
    - unfold imdct. f_equal. apply sum_ext. intros k Hk. f_equal. rewrite V1' by exact Hk. rewrite Rmult_1_l.
      unfold mdct. f_equal. apply sum_ext. intros m Hm. f_equal. fold w. destruct (Z_lt_le_dec m (ns + nd)) as [C|C].
      + f_equal. unfold tin, t. destruct (m <? nd)%Z eqn:C2.
        * apply He. lia.
        * fold (rat x (m - nd)). rewrite Vx by lia. f_equal. lia.
      + rewrite w_zero by exact C. ring.
    - rewrite Ens in *. apply imdct_alias; lia. }
  destruct (IH (i + 1)%Z de' dd') as (os & E3 & L3 & V3).
  - intros j x' Hx'. destruct (Hf (Datatypes.S j) x' Hx') as [Lx' Vx']. split; [exact Lx'|]. intros q Hq. rewrite Vx' by exact Hq. f_equal. lia.
  - lia.
  - lia.
  - intros q Hq. rewrite V1 by exact Hq. rewrite Vx by lia. f_equal. lia.
  - intros q Hq. rewrite V2 by exact Hq. rewrite IM by lia. replace (2 * ns - nd + q <? ns)%Z with false by lia. unfold overlap.
    replace (i + 1 - 1)%Z with i by lia. unfold t. fold w. replace (2 * ns - 1 - (2 * ns - nd + q))%Z with (nd - 1 - q)%Z by lia. ring.
  - rewrite E3. cbn [bind]. exists (o :: os). split; [reflexivity|]. split; [cbn [length]; rewrite L3; reflexivity|].
    intros [|j] o' Ho; cbn [nth_error] in Ho.
    + injection Ho as <-. split; [exact L2'|]. intros q Hq. rewrite V2' by exact Hq. rewrite IM by lia. fold w.
      replace ((i + Z.of_nat 0) * ns + q - (2 * nd - ns))%Z with (i * ns - nd + (ns - nd + q))%Z by lia. fold (t (ns - nd + q)%Z).
      destruct (q <? nd)%Z eqn:C.
      * replace (ns - nd + q <? ns)%Z with true by lia. rewrite (Z.mod_small (ns - nd + q)) by lia. rewrite Hd by lia. unfold overlap, window_gain.
        replace ((i - 1) * ns - nd + (2 * ns - nd + q))%Z with (i * ns - nd + (ns - nd + q))%Z by lia. fold (t (ns - nd + q)%Z).
        replace ((i - 1) * ns - nd + (3 * ns - 1 - (2 * ns - nd + q)))%Z with (i * ns - nd + (ns - 1 - (ns - nd + q)))%Z by lia. fold (t (ns - 1 - (ns - nd + q))%Z).
        replace (3 * ns - 1 - (2 * ns - nd + q))%Z with (2 * ns - 1 - (ns - nd + q))%Z by lia.
        replace (nd - 1 - q)%Z with (ns - 1 - (ns - nd + q))%Z by lia. replace (2 * ns - nd + q)%Z with (ns + (ns - nd + q))%Z by lia. ring.
      * replace (ns - nd + q <? ns)%Z with false by lia. rewrite (w_zero (3 * ns - 1 - (ns - nd + q))) by lia.
        replace (ns - nd + q)%Z with (q - nd + 1 * ns)%Z at 5 by lia. rewrite Z.mod_add, Z.mod_small by lia. unfold window_gain.
        rewrite (w_zero (2 * ns - 1 - (q - nd))) by lia. replace (ns + (q - nd))%Z with (ns - nd + q)%Z by lia.
        replace (ns - 1 - (q - nd))%Z with (2 * ns - 1 - (ns - nd + q))%Z by lia. ring.
    + destruct (V3 j o' Ho) as [Lo Vo]. split; [exact Lo|]. intros q Hq. rewrite Vo by exact Hq. do 2 f_equal. lia.
Qed.
End Chain.
