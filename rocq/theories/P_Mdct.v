(** * C35: the transforms *)
From Coq Require Import Reals ZArith List Bool Lia Lra ZifyBool.
From Verif Require Import Base BaseProofs ConfigModel MdctModel MdctProofs MdctFft MdctSpec MdctMath MdctExact MdctStream MdctWindows.
Import ListNotations.
Local Open Scope Z_scope.

(** ** Accesses
    For any type of numbers and any operations, thus for the floats of the code; the
    tables are those of the code, the local buffer has [MAX_NS] values. Every access is
    in its buffer ([Some]): the forward transform reads [ns] samples and [nd] delayed
    ones, keeps the last [nd] samples. *)
Theorem C35_forward_accesses (F : Type) (f0 : F) add sub mul opp (conv_t conv_w : Z -> F) dt sr ns_dst scale x d y buf :
  has_transform dt sr ->
  c_ns dt sr <= zlen x -> c_nd dt sr <= zlen d -> c_ns dt sr <= zlen y -> zlen buf = MAX_NS ->
  0 <= ns_dst -> ns_dst mod 4 = 0 -> ns_dst <= zlen y ->
  exists d' y',
    mdct_forward f0 add sub mul opp (code_fft conv_t) (code_rot conv_t dt sr) (c_ns dt sr) (c_nd dt sr) (code_win conv_w dt sr) ns_dst scale x d y buf = Some (d', y') /\
    zlen d' = zlen d /\ zlen y' = zlen y /\ (forall q, 0 <= q < c_nd dt sr -> at_ f0 d' q = at_ f0 x (c_ns dt sr - c_nd dt sr + q)).
Proof.
  intros Hc Lx Ld Ly Lb H0 H4 H5. destruct (code_sizes conv_w dt sr Hc) as (_ & _ & W). pose proof (code_shapes conv_t dt sr Hc) as (S1 & S2 & S3 & _).
  destruct (cfg_ok dt sr Hc) as (Q & _ & _ & _ & _ & _ & _ & _ & _ & HM).
  apply forward_safe; auto; [split; [exact S1|auto]|lia].
Qed.
Print Assumptions C35_forward_accesses.

(** The coefficients are in the output buffer ([src = None]) or in another one. *)
Theorem C35_inverse_accesses (F : Type) (f0 : F) add sub mul opp (conv_t conv_w : Z -> F) dt sr ns_src scale src d y buf :
  has_transform dt sr ->
  c_ns dt sr <= zlen (inp src y) -> c_nd dt sr <= zlen d -> c_ns dt sr <= zlen y -> zlen buf = MAX_NS ->
  exists d' y',
    mdct_inverse f0 add sub mul opp (code_fft conv_t) (code_rot conv_t dt sr) (c_ns dt sr) (c_nd dt sr) (code_win conv_w dt sr) ns_src scale src d y buf = Some (d', y') /\
    zlen d' = zlen d /\ zlen y' = zlen y.
Proof.
  intros Hc Lx Ld Ly Lb. destruct (code_sizes conv_w dt sr Hc) as (_ & _ & W). pose proof (code_shapes conv_t dt sr Hc) as (S1 & S2 & S3 & _).
  destruct (cfg_ok dt sr Hc) as (Q & _ & _ & _ & _ & _ & _ & _ & _ & HM).
  apply inverse_safe; auto; [split; [exact S1|auto]|lia].
Qed.
Print Assumptions C35_inverse_accesses.
(** 10 ms at 16 kHz, numbers modulo 2^16; with one sample less the accesses fail. *)
Example C35_accesses_example :
  let W := fun a => a mod 65536 in
  let z n := repeat 0 (Z.to_nat n) in
  let f ns := mdct_forward 0 (fun a b => W (a + b)) (fun a b => W (a - b)) (fun a b => W (a * b)) Z.opp (code_fft W) (code_rot W 3 1) 160 100 (code_win W 3 1) 160 1 (z ns) (z 100) (z ns) (z MAX_NS) in
  has_transform 3 1 /\ c_ns 3 1 = 160 /\ c_nd 3 1 = 100 /\
  f 160 = Some (z 100, z 160) /\ f 159 = None.
Proof. split; [unfold has_transform, DT_7M5; lia|]. vm_compute. repeat split; reflexivity. Qed.

Local Open Scope R_scope.

(** ** Exact arithmetic, exact tables *)

(** The FFT computes the discrete Fourier transform, on any input. *)
Theorem C35_fft T dt sr y0 y1 :
  has_transform dt sr -> exact_tables T -> let P := (c_ns dt sr / 2)%Z in (2 * P <= zlen y0)%Z -> (2 * P <= zlen y1)%Z ->
  exists in_y1 cur other, rfft T P y0 y1 = Some (in_y1, (cur, other)) /\
    forall k, (0 <= k < P)%Z -> (rat cur (2 * k), rat cur (2 * k + 1)) = dft P (fun m => rat y0 (2 * m)) (fun m => rat y0 (2 * m + 1)) k.
Proof.
  intros Hc Ht P L0 L1. destruct (cfg_ok dt sr Hc) as (Q & HQ & Ha & Hb & EP & Ens & Ef & _). pose proof (exact_cfg T dt sr Hc Ht) as Ex.
  assert (Hb5 : (0 <= exp2 (c_ns dt sr / 2) <= 5)%Z) by (destruct (exp3 (c_ns dt sr / 2) =? 2)%Z; lia). fold P in EP, Ef, Ex, Ha, Hb5. rewrite <- EP in Ef.
  rewrite <- Ef in L0, L1. destruct (fft_exact T _ _ y0 y1 Ha Hb5 Ex L0 L1) as (i & cur & other & E & V & _). rewrite Ef in E, V.
  exists i, cur, other. split; [exact E|]. intros k Hk. exact (V k Hk).
Qed.
Print Assumptions C35_fft.

(** The forward transform gives the MDCT of the [nd] delayed samples followed by the [ns]
    samples of the frame, on the window; scaled when the sample rates differ. *)
Theorem C35_forward T rot win dt sr ns_dst scale x d y buf :
  has_transform dt sr -> exact_tables T -> exact_rot rot (c_ns dt sr) -> zlen win = (c_ns dt sr + c_nd dt sr)%Z ->
  zlen x = c_ns dt sr -> zlen d = c_nd dt sr -> (c_ns dt sr <= zlen y)%Z -> zlen buf = MAX_NS ->
  (0 <= ns_dst)%Z -> (ns_dst mod 4 = 0)%Z -> (ns_dst <= zlen y)%Z ->
  exists d' y', rforward T rot (c_ns dt sr) (c_nd dt sr) win ns_dst scale x d y buf = Some (d', y') /\
    d' = skipn (Z.to_nat (c_ns dt sr - c_nd dt sr)) x /\
    forall k, (0 <= k < c_ns dt sr)%Z ->
      rat y' k = (if (c_ns dt sr =? ns_dst)%Z then 1 else if (k <? ns_dst)%Z then scale else 1) * mdct (c_ns dt sr) (rat win) (rat (d ++ x)) k.
Proof.
  intros Hc Ht Hr Lw Lx Ld Ly Lb H0 H4 H5. destruct (cfg_ok dt sr Hc) as (Q & HQ & _ & _ & _ & Ens & _ & Hnd & _ & HM).
  destruct (forward_mdct T rot win dt sr ns_dst scale x d y buf Hc Ht Hr Lw) as (d' & y' & E & L1 & L2 & V1 & V2); try assumption; try lia.
  exists d', y'. split; [exact E|]. split.
  - apply (nth_ext _ _ 0 0).
    + rewrite skipn_length. unfold zlen in *. lia.
    + intros n Hn. rewrite nth_skipn'. unfold zlen in *. specialize (V1 (Z.of_nat n) ltac:(lia)). unfold rat, at_ in V1. rewrite Nat2Z.id in V1. rewrite V1. f_equal. lia.
  - intros k Hk. rewrite V2 by exact Hk. f_equal. unfold mdct. f_equal. apply sum_ext. intros n Hn. do 2 f_equal.
    unfold tin, rat, at_. unfold zlen in *. destruct (n <? c_nd dt sr)%Z eqn:C.
    + rewrite app_nth1 by lia. reflexivity.
    + rewrite app_nth2 by lia. f_equal. lia.
Qed.
Print Assumptions C35_forward.

(** The inverse transform gives the IMDCT on the reversed window: the first [nd] of its
    samples are added to the delayed ones, the last [nd] are the new delayed ones. *)
Theorem C35_inverse T rot win dt sr ns_src scale src d y buf :
  has_transform dt sr -> exact_tables T -> exact_rot rot (c_ns dt sr) -> zlen win = (c_ns dt sr + c_nd dt sr)%Z ->
  (c_ns dt sr <= zlen (inp src y))%Z -> (c_nd dt sr <= zlen d)%Z -> (c_ns dt sr <= zlen y)%Z -> zlen buf = MAX_NS ->
  let ns := c_ns dt sr in let nd := c_nd dt sr in
  let X := rat (inp src y) in let g := if (ns =? ns_src)%Z then 1 else scale in
  let v := fun n => g * (rat win (2 * ns - 1 - n) * imdct ns X n) in
  exists d' y', rinverse T rot ns nd win ns_src scale src d y buf = Some (d', y') /\
    (forall q, (0 <= q < nd)%Z -> rat d' q = v (2 * ns - nd + q)%Z) /\
    (forall q, (0 <= q < ns)%Z -> rat y' q = (if (q <? nd)%Z then rat d q else 0) + v (ns - nd + q)%Z).
Proof.
  intros Hc Ht Hr Lw Lx Ld Ly Lb. destruct (cfg_ok dt sr Hc) as (Q & HQ & _ & _ & _ & Ens & _ & Hnd & _ & HM).
  destruct (inverse_imdct T rot win dt sr ns_src scale src d y buf Hc Ht Hr Lw Lx Ld Ly ltac:(lia)) as (d' & y' & E & _ & _ & V1 & V2).
  exists d', y'. auto.
Qed.
Print Assumptions C35_inverse.

(** The windows of the code: the two windows multiply each sample of a frame by one, up to
    2^-23, for every configuration. *)
Theorem C35_windows dt sr n : has_transform dt sr -> (0 <= n < c_ns dt sr)%Z ->
  Rabs (window_gain (c_ns dt sr) (rat (code_win win_value dt sr)) n - 1) <= / 2 ^ 23.
Proof. intros Hc Hn. pose proof (code_gain dt sr n Hc Hn) as G. rewrite (pow_IZR 2 23). exact G. Qed.
Print Assumptions C35_windows.

(** Streams: any sequence of frames, transformed by the encoder then by the decoder with
    the windows of the code, comes back delayed by [2 nd - ns] samples, with a relative
    error of 2^-23 at most. *)
Theorem C35_stream T rot dt sr ybuf zbuf frames :
  has_transform dt sr -> exact_tables T -> exact_rot rot (c_ns dt sr) ->
  (c_ns dt sr <= zlen ybuf)%Z -> zlen zbuf = MAX_NS -> (forall x, In x frames -> zlen x = c_ns dt sr) ->
  let ns := c_ns dt sr in let nd := c_nd dt sr in let zero := repeat 0 (Z.to_nat nd) in
  exists os, chain T rot ns nd (code_win win_value dt sr) ybuf zbuf frames zero zero = Some os /\ length os = length frames /\
  forall j o, nth_error os j = Some o -> forall q, (0 <= q < ns)%Z ->
    let s := samples ns frames (Z.of_nat j * ns + q - (2 * nd - ns)) in
    Rabs (rat o q - s) <= Rabs s * / 2 ^ 23.
Proof.
  intros Hc Ht Hr Ly Lz Lf. destruct (cfg_ok dt sr Hc) as (Q & HQ & _ & _ & _ & Ens & _ & Hnd & _ & HM). destruct (code_sizes win_value dt sr Hc) as (_ & _ & W).
  destruct (start_ok T rot dt sr (code_win win_value dt sr) ybuf zbuf frames Hc Ht Hr W Ly ltac:(lia) Lf) as (os & E & L & V).
  cbv zeta. exists os. split; [exact E|]. split; [exact L|]. intros j o Ho q Hq. rewrite (V j o Ho q Hq). set (s := samples _ _ _). clearbody s.
  pose proof (C35_windows dt sr ((c_ns dt sr - c_nd dt sr + q) mod c_ns dt sr) Hc ltac:(apply Z.mod_pos_bound; lia)) as G.
  set (g := window_gain _ _ _) in *. clearbody g. replace (g * s - s) with (s * (g - 1)) by ring. rewrite Rabs_mult. apply Rmult_le_compat_l; [apply Rabs_pos|exact G].
Qed.
Print Assumptions C35_stream.

(** The hypotheses on the tables are met, by the values that src/tables.c states. *)
Example C35_exact_example : exact_tables ideal_fft /\ exact_rot (ideal_rot (c_ns 3 1)) (c_ns 3 1) /\ has_transform 3 1 /\ samples 160 [repeat 1 160] 5 = 1.
Proof.
  split; [exact ideal_tables|]. split; [apply ideal_rot_ok; vm_compute; discriminate|]. split; [unfold has_transform, DT_7M5; lia|]. reflexivity.
Qed.
