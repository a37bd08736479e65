(** * C51: the transforms with the NEON kernels *)
From Coq Require Import Reals ZArith List Bool Lia Lra ZifyBool Ring_theory.
From Flocq Require Import Core.Core IEEE754.BinarySingleNaN.
From Verif Require Import Base BaseProofs ConfigModel MdctModel MdctTables MdctProofs MdctFft MdctSpec MdctMath MdctExact MdctStream MdctWindows MdctNeonModel MdctNeonF32Model MdctNeonProofs MdctNeonStream
  FloatLaws FloatOps F32Model F32Proofs MdctFloat MdctNeonFloat EncModel SynthModel P_Mdct.
Import ListNotations.
Local Open Scope Z_scope.

(** ** Accesses
    For any type of numbers and any operations. The NEON kernels work on two transforms at a
    time, and on two butterflies at a time: every access is in its buffer all the same. *)
Theorem C51_forward_accesses (F : Type) (f0 : F) add sub mul opp fma fms (conv_t conv_w : Z -> F) dt sr ns_dst scale x d y buf :
  has_transform dt sr ->
  c_ns dt sr <= zlen x -> c_nd dt sr <= zlen d -> c_ns dt sr <= zlen y -> zlen buf = MAX_NS ->
  0 <= ns_dst -> ns_dst mod 4 = 0 -> ns_dst <= zlen y ->
  exists d' y',
    neon_mdct_forward f0 add sub mul opp fma fms (code_fft conv_t) (code_rot conv_t dt sr) (c_ns dt sr) (c_nd dt sr) (code_win conv_w dt sr) ns_dst scale x d y buf = Some (d', y') /\
    zlen d' = zlen d /\ zlen y' = zlen y /\ (forall q, 0 <= q < c_nd dt sr -> at_ f0 d' q = at_ f0 x (c_ns dt sr - c_nd dt sr + q)).
Proof.
  intros Hc Lx Ld Ly Lb H0 H4 H5. destruct (code_sizes conv_w dt sr Hc) as (_ & _ & W). pose proof (code_shapes conv_t dt sr Hc) as (S1 & S2 & S3 & _).
  destruct (cfg_ok dt sr Hc) as (Q & _ & _ & _ & _ & _ & _ & _ & _ & HM).
  apply neon_forward_safe; auto; [split; [exact S1|auto]|lia].
Qed.
Theorem C51_inverse_accesses (F : Type) (f0 : F) add sub mul opp fma fms (conv_t conv_w : Z -> F) dt sr ns_src scale src d y buf :
  has_transform dt sr ->
  c_ns dt sr <= zlen (inp src y) -> c_nd dt sr <= zlen d -> c_ns dt sr <= zlen y -> zlen buf = MAX_NS ->
  exists d' y',
    neon_mdct_inverse f0 add sub mul opp fma fms (code_fft conv_t) (code_rot conv_t dt sr) (c_ns dt sr) (c_nd dt sr) (code_win conv_w dt sr) ns_src scale src d y buf = Some (d', y') /\
    zlen d' = zlen d /\ zlen y' = zlen y.
Proof.
  intros Hc Lx Ld Ly Lb. destruct (code_sizes conv_w dt sr Hc) as (_ & _ & W). pose proof (code_shapes conv_t dt sr Hc) as (S1 & S2 & S3 & _).
  destruct (cfg_ok dt sr Hc) as (Q & _ & _ & _ & _ & _ & _ & _ & _ & HM).
  apply neon_inverse_safe; auto; [split; [exact S1|auto]|lia].
Qed.
(** 2.5 ms at 8 kHz, numbers modulo 2^16; with one sample less the accesses fail. On an odd
    number of transforms the first kernel gets out of its buffers: no configuration has one. *)
Example C51_accesses_example :
  let W := fun a => a mod 65536 in
  let z n := repeat 0 (Z.to_nat n) in
  let fma a b c := W (a + b * c) in let fms a b c := W (a - b * c) in
  let f ns := neon_mdct_forward 0 (fun a b => W (a + b)) (fun a b => W (a - b)) (fun a b => W (a * b)) Z.opp fma fms (code_fft W) (code_rot W 0 0) 20 20 (code_win W 0 0) 20 1 (z ns) (z 20) (z ns) (z MAX_NS) in
  let k n := neon_fft_5 0 (fun a b => W (a + b)) (fun a b => W (a - b)) Z.opp fma fms (ft_5 (code_fft W)) (z (10 * n)) (z (10 * n)) n in
  has_transform 0 0 /\ c_ns 0 0 = 20 /\ c_nd 0 0 = 20 /\
  f 19 = None /\ k 2 = Some (z 20) /\ k 3 = None.
Proof. split; [unfold has_transform, DT_7M5; lia|]. vm_compute. repeat split; reflexivity. Qed.

(** ** Exact arithmetic
    In any commutative ring, with the exact multiply-add [a + b c] and multiply-subtract
    [a - b c], the NEON transforms give the portable ones: the same coefficients, the same
    samples, the same delayed samples. *)
Theorem C51_forward (F : Type) (f0 f1 : F) add sub mul opp fma fms (conv_t conv_w : Z -> F) dt sr ns_dst scale x d y buf :
  ring_theory f0 f1 add mul sub opp (@eq F) ->
  (forall a b c, fma a b c = add a (mul b c)) -> (forall a b c, fms a b c = sub a (mul b c)) ->
  has_transform dt sr -> c_ns dt sr <= zlen x -> c_nd dt sr <= zlen d -> c_ns dt sr <= zlen y -> zlen buf = MAX_NS ->
  neon_mdct_forward f0 add sub mul opp fma fms (code_fft conv_t) (code_rot conv_t dt sr) (c_ns dt sr) (c_nd dt sr) (code_win conv_w dt sr) ns_dst scale x d y buf =
  mdct_forward f0 add sub mul opp (code_fft conv_t) (code_rot conv_t dt sr) (c_ns dt sr) (c_nd dt sr) (code_win conv_w dt sr) ns_dst scale x d y buf.
Proof.
  intros RT H1 H2 Hc Lx Ld Ly Lb. destruct (code_sizes conv_w dt sr Hc) as (_ & _ & W). pose proof (code_shapes conv_t dt sr Hc) as (S1 & S2 & S3 & _).
  destruct (cfg_ok dt sr Hc) as (Q & _ & _ & _ & _ & _ & _ & _ & _ & HM).
  eapply neon_forward_eq; eauto; [split; [exact S1|auto]|lia].
Qed.
Theorem C51_inverse (F : Type) (f0 f1 : F) add sub mul opp fma fms (conv_t conv_w : Z -> F) dt sr ns_src scale src d y buf :
  ring_theory f0 f1 add mul sub opp (@eq F) ->
  (forall a b c, fma a b c = add a (mul b c)) -> (forall a b c, fms a b c = sub a (mul b c)) ->
  has_transform dt sr -> c_ns dt sr <= zlen (inp src y) -> c_ns dt sr <= zlen y -> zlen buf = MAX_NS ->
  neon_mdct_inverse f0 add sub mul opp fma fms (code_fft conv_t) (code_rot conv_t dt sr) (c_ns dt sr) (c_nd dt sr) (code_win conv_w dt sr) ns_src scale src d y buf =
  mdct_inverse f0 add sub mul opp (code_fft conv_t) (code_rot conv_t dt sr) (c_ns dt sr) (c_nd dt sr) (code_win conv_w dt sr) ns_src scale src d y buf.
Proof.
  intros RT H1 H2 Hc Lx Ly Lb. destruct (code_sizes conv_w dt sr Hc) as (_ & _ & W). pose proof (code_shapes conv_t dt sr Hc) as (S1 & S2 & S3 & _).
  destruct (cfg_ok dt sr Hc) as (Q & _ & _ & _ & _ & _ & _ & _ & _ & HM).
  eapply neon_inverse_eq; eauto; [split; [exact S1|auto]|lia].
Qed.
(** The integers: 2.5 ms at 8 kHz, an impulse; the transform is not null. *)
Example C51_ring_example :
  let one := 1 :: repeat 0 19 in
  let z n := repeat 0 (Z.to_nat n) in
  let f := mdct_forward 0 Z.add Z.sub Z.mul Z.opp (code_fft (fun v => v)) (code_rot (fun v => v) 0 0) 20 20 (code_win (fun v => v) 0 0) 20 1 one (z 20) (z 20) (z MAX_NS) in
  let g := neon_mdct_forward 0 Z.add Z.sub Z.mul Z.opp (fun a b c => a + b * c) (fun a b c => a - b * c) (code_fft (fun v => v)) (code_rot (fun v => v) 0 0) 20 20 (code_win (fun v => v) 0 0) 20 1 one (z 20) (z 20) (z MAX_NS) in
  match f, g with Some (d1, y1), Some (d2, y2) => forallb (fun p => fst p =? snd p) (combine y1 y2) = true /\ zlen y1 = 20 /\ zlen y2 = 20 /\ existsb (fun v => negb (v =? 0)) y2 = true | _, _ => False end.
Proof. vm_compute. repeat split; reflexivity. Qed.

(** On the reals with the exact tables, the NEON FFT computes the discrete Fourier transform. *)
Theorem C51_dft T dt sr y0 y1 :
  has_transform dt sr -> exact_tables T -> let P := c_ns dt sr / 2 in 2 * P <= zlen y0 -> 2 * P <= zlen y1 ->
  exists in_y1 cur other,
    neon_fft 0%R Rplus Rminus Ropp (fun a b c => (a + b * c)%R) (fun a b c => (a - b * c)%R) T P y0 y1 = Some (in_y1, (cur, other)) /\
    forall k, 0 <= k < P -> (rat cur (2 * k), rat cur (2 * k + 1)) = dft P (fun m => rat y0 (2 * m)) (fun m => rat y0 (2 * m + 1)) k.
Proof.
  intros Hc Ht P L0 L1. destruct (C35_fft T dt sr y0 y1 Hc Ht L0 L1) as (i & cur & other & E & V). exists i, cur, other. split; [|exact V]. rewrite <- E. unfold P in *.
  destruct (cfg_ok dt sr Hc) as (Q & HQ & _ & _ & EP & Ens & _).
  apply (neon_fft_cfg 0%R Rplus Rminus Rmult Ropp _ _ 1%R RTheory); auto; try lia.
  apply exact_shape, exact_cfg; assumption.
Qed.
Example C51_dft_example : exact_tables ideal_fft /\ has_transform 0 0 /\ c_ns 0 0 / 2 = 10.
Proof. split; [exact ideal_tables|]. split; [unfold has_transform, DT_7M5; lia|reflexivity]. Qed.

(** ** binary32
    With the fused operations of the processor, the tables of the code and any values in the
    local buffers. *)
Definition within (k : Z) (v : f32) : Prop := is_finite v = true /\ (Rabs (B2R v) <= bpow radix2 k)%R.
Lemma within_pb k l : Forall (within k) l <-> Forall (pb k) l.
Proof.
  split; apply Forall_impl; intros v (A & B); (split; [exact A|]); unfold val, p2 in *; rewrite ?Rmult_1_l in *; exact B.
Qed.

(** The samples below [2^k] in magnitude give finite coefficients, and they keep so. *)
Theorem C51_forward_finite nan junk dt sr srp k x d y :
  has_transform dt srp -> 0 <= sr <= srp -> 0 <= k <= 40 -> 0 <= c_ns dt sr <= c_ns dt srp -> c_ns dt sr mod 4 = 0 ->
  zlen x = c_ns dt srp -> zlen d = c_nd dt srp -> zlen y = c_ns dt srp -> Forall (within k) x -> Forall (within k) d ->
  exists d' y', neon_forward nan junk dt srp sr x d y = Some (d', y') /\ zlen d' = c_nd dt srp /\ zlen y' = c_ns dt srp /\
    Forall (within k) d' /\ Forall (within (k + 23)) y'.
Proof.
  intros Hc Hs Hk H0 H4 Lx Ld Ly Hx Hd. apply within_pb in Hx, Hd.
  destruct (neon_forward_bound nan junk dt sr srp k x d y Hc Hs Hk Hx Hd Lx Ld Ly H0 H4) as (d' & y' & E & L1 & L2 & V1 & V2). exists d', y'. rewrite !within_pb. auto.
Qed.
Theorem C51_inverse_finite nan junk dt sr srp k d y :
  has_transform dt srp -> 0 <= sr <= srp -> 0 <= k <= 40 ->
  zlen d = c_nd dt srp -> zlen y = c_ns dt srp -> Forall (within k) y -> Forall (within (k + 24)) d ->
  exists d' y', neon_inverse nan junk dt srp sr None d y = Some (d', y') /\ zlen d' = c_nd dt srp /\ zlen y' = c_ns dt srp /\
    Forall (within (k + 24)) d' /\ Forall (within (k + 25)) y'.
Proof.
  intros Hc Hs Hk Ld Ly Hx Hd. apply within_pb in Hx, Hd.
  destruct (neon_inverse_bound nan junk dt sr srp k d y Hc Hs Hk Hx Hd Ld Ly) as (d' & y' & E & L1 & L2 & V1 & V2). exists d', y'. rewrite !within_pb. auto.
Qed.
(** A null signal has null coefficients, and null coefficients give a null signal. *)
Theorem C51_null nan junk dt sr srp x d y c e :
  let null l := Forall (fun v : f32 => exists s, v = B754_zero s) l in
  has_transform dt srp -> 0 <= sr <= srp -> 0 <= c_ns dt sr <= c_ns dt srp -> c_ns dt sr mod 4 = 0 ->
  zlen x = c_ns dt srp -> zlen d = c_nd dt srp -> zlen y = c_ns dt srp -> zlen c = c_ns dt srp -> zlen e = c_nd dt srp ->
  null x -> null d -> null c -> null e ->
  (exists d' y', neon_forward nan junk dt srp sr x d y = Some (d', y') /\ null d' /\ null y') /\
  (exists d' y', neon_inverse nan junk dt srp sr None e c = Some (d', y') /\ null d' /\ null y').
Proof.
  intros null Hc Hs H0 H4 Lx Ld Ly Lc Le Nx Nd Nc Ne. split.
  - destruct (neon_forward_zero nan junk dt sr srp 0 x d y Hc Hs ltac:(lia) Nx Nd Lx Ld Ly H0 H4) as (d' & y' & E & _ & _ & V1 & V2). exists d', y'. auto.
  - destruct (neon_inverse_zero nan junk dt sr srp 0 e c Hc Hs ltac:(lia) Nc Ne Le Lc) as (d' & y' & E & _ & _ & V1 & V2). exists d', y'. auto.
Qed.

(** The coefficients are not those of the portable code, bit for bit: 2.5 ms at 8 kHz, the
    samples 1 to 20 after a null frame. *)
Definition bits_of (r : option (list f32 * list f32)) : option (list Z) := option_map (fun p => map (f32_bits 0) (snd p)) r.
Definition ramp : list f32 := map (fun i => f32_dy i 0) (map Z.of_nat (seq 1 20)).
Definition null20 : list f32 := repeat (f32_dy 0 0) 20.
Theorem C51_bits_refuted : exists x d y : list f32, has_transform 0 0 /\ zlen x = c_ns 0 0 /\ zlen d = c_nd 0 0 /\ zlen y = c_ns 0 0 /\
  exists u v, bits_of (forward 0 (f32_dy 0 0) 0 0 0 x d y) = Some u /\ bits_of (neon_forward 0 (f32_dy 0 0) 0 0 0 x d y) = Some v /\ u <> v.
Proof.
  exists ramp, null20, null20. split; [unfold has_transform, DT_7M5; lia|]. do 3 (split; [reflexivity|]).
  eexists _, _. split; [vm_compute; reflexivity|]. split; [vm_compute; reflexivity|]. vm_compute. discriminate.
Qed.
Example C51_ramp_finite : Forall (within 5) ramp /\ Forall (within 5) null20.
Proof.
  rewrite !within_pb. assert (A : forall v, Z.abs v <= 2 ^ 5 -> pb 5 (f32_dy v 0)) by (intros v Hv; apply (pb_dy v 0 5); [unfold eok; lia|lia|exact Hv]). split.
  - unfold ramp. apply Forall_map. repeat (constructor; [apply A; vm_compute; discriminate|]). constructor.
  - unfold null20. apply Forall_forall. intros v Hv. apply repeat_spec in Hv. subst v. apply A. vm_compute. discriminate.
Qed.

Print Assumptions C51_forward_accesses.
Print Assumptions C51_inverse_accesses.
Print Assumptions C51_forward.
Print Assumptions C51_inverse.
Print Assumptions C51_dft.
Print Assumptions C51_forward_finite.
Print Assumptions C51_inverse_finite.
Print Assumptions C51_null.
Print Assumptions C51_bits_refuted.
