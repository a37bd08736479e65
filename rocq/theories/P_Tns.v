(** * C42: temporal noise shaping, analysis and synthesis *)
From Coq Require Import ZArith List Bool Lia QArith Qcanon Reals Lra SpecFloat.
From Verif Require Import Base ConfigModel SideModel SideSpec ShapeTables FloatOps Binary32 RealOps TnsModel TnsProofs TnsFilter TnsStable TnsMain TnsReal TnsExample.
Import ListNotations.
Local Open Scope Z_scope.

(** The frames of 2.5 to 10 ms ([dt] 0 to 3) and of bandwidth [bw] (0: 8 kHz, 1: 16 kHz, 2: 24 kHz,
    3: 32 kHz, 4: 48 kHz, 5 and 6: high resolution, not with 7.5 ms). *)
Definition frame_cfg (dt bw : Z) : Prop := 0 <= dt <= 3 /\ 0 <= bw <= 6 /\ (dt = 2 -> bw <= 4).
(** First coefficient and end of what is filtered: 0.6 kHz to 4 kHz, ..., 20 kHz; a
    coefficient is for 200, 100, 66.7 or 50 Hz. *)
Definition filter_start (dt : Z) : Z := 3 * (1 + dt).
Definition filter_end (dt bw : Z) : Z := (1 + dt) * znth [20; 40; 60; 80; 100; 100; 100] bw 0.

Lemma frame_cfg_eq dt bw : frame_cfg dt bw <-> tns_cfg dt bw.
Proof. reflexivity. Qed.
Lemma filter_end_eq dt bw : frame_cfg dt bw -> filter_end dt bw = tns_end dt bw.
Proof.
  intros C. apply frame_cfg_eq in C.
  pose proof (all_cfg (fun dt bw => filter_end dt bw =? tns_end dt bw) ltac:(vm_compute; reflexivity) dt bw C) as H. cbv beta in H. lia.
Qed.

(** The analysis, for any float arithmetic (any spectrum, with infinities or NaN, any rounding):
    no access is out of the arrays; the data are codable ([tns_ok]); the last coefficient of
    a filter is not null; the spectrum out of the filters is unchanged; the result does not
    depend on the array elements that the code reads without having set them. *)
Theorem C42_analysis (F : Type) (fl : fops F) (junk : F) dt bw nn nbytes x :
  frame_cfg dt bw -> filter_end dt bw <= zlen x ->
  exists d y, tns_analyze fl junk dt bw nn nbytes x = Some (d, y) /\
    tns_ok dt bw nbytes d /\
    Forall (fun q => q = [] \/ exists v, rd q (zlen q - 1) = Some v /\ v <> 0) (t_filters d) /\
    zlen y = zlen x /\
    (forall i, i < filter_start dt \/ filter_end dt bw <= i -> rd y i = rd x i) /\
    forall junk', tns_analyze fl junk' dt bw nn nbytes x = Some (d, y).
Proof.
  intros C L. rewrite filter_end_eq in * by exact C. apply frame_cfg_eq in C.
  destruct (analyze_ok fl junk dt bw nn nbytes x C L) as (d & y & E & T & Tr & Ly & O & J & _). exists d, y. auto 8.
Qed.
Print Assumptions C42_analysis.

(** In binary32, a spectrum with a filter; then with a NaN. *)
Example C42_analysis_ex :
  let fl := b32_ops (fun x => x) (fun x => x) in
  let x := map (f_z fl) [0; 0; 0; 100; 90; 70; 60; 40; 33; 20; -5; -30; -50; -70; -80; -90; -70; -60; -44; -20] in
  frame_cfg 0 0 /\ filter_end 0 0 = zlen x /\
  (exists y, tns_analyze fl S754_nan 0 0 false 20 x = Some (mkTns false [[-6; 1; 1; 1]], y) /\ rd y 0 = rd x 0 /\ rd y 4 <> rd x 4) /\
  (exists y, tns_analyze fl S754_nan 0 0 false 20 (upd x 5 S754_nan) = Some (mkTns false [[]], y)).
Proof.
  cbv zeta. split; [unfold frame_cfg; lia|]. split; [reflexivity|]. split.
  - eexists. split; [vm_compute; reflexivity|]. split; [reflexivity|]. vm_compute. discriminate.
  - eexists. vm_compute. reflexivity.
Qed.

(** Near the Nyquist frequency no filter is used and the spectrum is unchanged. *)
Theorem C42_near_nyquist (F : Type) (fl : fops F) (junk : F) dt bw nbytes x :
  frame_cfg dt bw -> filter_end dt bw <= zlen x ->
  exists d, tns_analyze fl junk dt bw true nbytes x = Some (d, x) /\ Forall (fun q => q = []) (t_filters d).
Proof.
  intros C L. rewrite filter_end_eq in * by exact C. apply frame_cfg_eq in C. eexists. split; [apply analyze_near_nyquist; assumption|].
  apply Forall_forall. intros q. apply repeat_spec.
Qed.
Print Assumptions C42_near_nyquist.

(** A null spectrum gets no filter, in binary32, with zeros of both signs. *)
Theorem C42_silence (exp2 log2 : b32 -> b32) junk dt bw nn nbytes x :
  frame_cfg dt bw -> filter_end dt bw <= zlen x -> Forall (fun v => v = S754_zero true \/ v = S754_zero false) x ->
  exists d, tns_analyze (b32_ops exp2 log2) junk dt bw nn nbytes x = Some (d, x) /\ Forall (fun q => q = []) (t_filters d).
Proof.
  intros C L H. rewrite filter_end_eq in * by exact C. apply frame_cfg_eq in C. eexists. split.
  - apply (analyze_zero (b32_ops exp2 log2) b32_zero (b32_zero_laws exp2 log2)); [exact C|exact L|].
    eapply Forall_impl; [|exact H]. intros v [-> | ->]; eexists; reflexivity.
  - apply Forall_forall. intros q. apply repeat_spec.
Qed.
Print Assumptions C42_silence.

Example C42_silence_ex :
  tns_analyze (b32_ops (fun x => x) (fun x => x)) S754_nan 1 3 false 20 (repeat (S754_zero false) 160) =
  Some (mkTns true [[]; []], repeat (S754_zero false) 160).
Proof. vm_compute. reflexivity. Qed.

(** The prediction of a filter is measured on 2 parts of its range (3 from 7.5 ms on); a null
    part, of [a] to [b], disables the filter (its energy would be a divisor). *)
Theorem C42_null_part (exp2 log2 : b32 -> b32) junk dt bw nn nbytes x f s a b :
  frame_cfg dt bw -> filter_end dt bw <= zlen x -> 0 <= f < Z.of_nat (tns_nfilters dt bw) ->
  let parts := if dt <? 2 then 2 else 3 in
  0 <= s < parts -> rd (tns_sub dt bw) (f * parts + s) = Some a -> rd (tns_sub dt bw) (f * parts + s + 1) = Some b ->
  (forall i v, a <= i < b -> rd x i = Some v -> v = S754_zero true \/ v = S754_zero false) ->
  exists d y, tns_analyze (b32_ops exp2 log2) junk dt bw nn nbytes x = Some (d, y) /\ rd (t_filters d) f = Some [].
Proof.
  intros C L Hf parts Hs Ea Eb H. rewrite filter_end_eq in * by exact C.
  assert (P : parts = tns_nsub dt) by (unfold parts, tns_nsub, DT_7M5; destruct (dt <? 2) eqn:D; replace (2 <=? dt) with (negb (dt <? 2)) by lia; rewrite D; reflexivity).
  rewrite P in *. apply frame_cfg_eq in C.
  apply (analyze_null_band (b32_ops exp2 log2) b32_zero (b32_zero_laws exp2 log2) junk dt bw nn nbytes x f s a b); auto.
  intros i v Hi Hv. destruct (H i v Hi Hv) as [-> | ->]; eexists; reflexivity.
Qed.
Print Assumptions C42_null_part.

(** The spectrum of [C42_analysis_ex] with its second part, of 10 to 20, null. *)
Example C42_null_part_ex :
  let fl := b32_ops (fun x => x) (fun x => x) in
  let x := map (f_z fl) [0; 0; 0; 100; 90; 70; 60; 40; 33; 20; 0; 0; 0; 0; 0; 0; 0; 0; 0; 0] in
  rd (tns_sub 0 0) 1 = Some 10 /\ rd (tns_sub 0 0) 2 = Some 20 /\
  tns_analyze fl S754_nan 0 0 false 20 x = Some (mkTns false [[]], x).
Proof. vm_compute. auto. Qed.

(** The synthesis, for any float arithmetic and any data of a frame: no access is out of the
    arrays, the spectrum out of the filters is unchanged, and all of it without filter. *)
Theorem C42_synthesis (F : Type) (fl : fops F) dt bw nbytes d x :
  frame_cfg dt bw -> filter_end dt bw <= zlen x -> tns_ok dt bw nbytes d ->
  exists y, tns_synthesize fl dt bw d x = Some y /\ zlen y = zlen x /\
    (forall i, i < filter_start dt \/ filter_end dt bw <= i -> rd y i = rd x i) /\
    (Forall (fun q => q = []) (t_filters d) -> y = x).
Proof. intros C L T. rewrite filter_end_eq in * by exact C. apply frame_cfg_eq in C. exact (synthesize_ok fl dt bw nbytes d x C L T). Qed.
Print Assumptions C42_synthesis.

Example C42_synthesis_ex :
  tns_ok 1 3 20 (mkTns true [[-8; 8; -8; 8]; [3]]) /\
  exists y, tns_synthesize (b32_ops (fun x => x) (fun x => x)) 1 3 (mkTns true [[-8; 8; -8; 8]; [3]]) (repeat (b32_dy 1 0) 160) = Some y /\ zlen y = 160.
Proof.
  split; [|eexists; split; [vm_compute; reflexivity|reflexivity]].
  split; [reflexivity|]. split; [reflexivity|]. repeat constructor; cbv; discriminate.
Qed.

(** With exact arithmetic the decoder undoes the encoder: for every spectrum the synthesis,
    with the data of the analysis, gives it back (any commutative ring, reals included). *)
Theorem C42_inverse (F : Type) (fl : fops F)
  (Rg : ring_theory (f_z fl 0) (f_z fl 1) (f_add fl) (f_mul fl) (f_sub fl) (f_opp fl) (@eq F))
  (junk : F) dt bw nn nbytes x :
  frame_cfg dt bw -> filter_end dt bw <= zlen x ->
  exists d y, tns_analyze fl junk dt bw nn nbytes x = Some (d, y) /\ tns_synthesize fl dt bw d y = Some x.
Proof.
  intros C L. rewrite filter_end_eq in * by exact C. apply frame_cfg_eq in C.
  destruct (analyze_ok fl junk dt bw nn nbytes x C L) as (d & y & E & _). exists d, y. split; [exact E|].
  exact (synthesize_analyze fl Rg junk dt bw nn nbytes x d y C L E).
Qed.
Print Assumptions C42_inverse.

Theorem C42_inverse_reals (junk : R) dt bw nn nbytes x :
  frame_cfg dt bw -> filter_end dt bw <= zlen x ->
  exists d y, tns_analyze Rops junk dt bw nn nbytes x = Some (d, y) /\ tns_synthesize Rops dt bw d y = Some x.
Proof. exact (C42_inverse R Rops Rops_ring junk dt bw nn nbytes x). Qed.
Print Assumptions C42_inverse_reals.

(** On the rationals, with a filter of order 4. *)
Example C42_inverse_ex :
  let x := map (f_z Qcops) [0; 0; 0; 100; 90; 70; 60; 40; 33; 20; -5; -30; -50; -70; -80; -90; -70; -60; -44; -20] in
  match tns_analyze Qcops (f_z Qcops 7) 0 0 false 20 x with
  | Some (d, y) => t_filters d = [[-6; 1; 1; 1]] /\ map this y <> map this x /\ option_map (map this) (tns_synthesize Qcops 0 0 d y) = Some (map this x)
  | None => False
  end.
Proof. vm_compute. split; [reflexivity|]. split; [discriminate|reflexivity]. Qed.

Local Open Scope R_scope.

(** The coefficients of the filters; the product of the 1 - c^2 of the data. *)
Definition tns_coef (q : Z) : R := (if (q <? 0)%Z then -1 else 1) * IZR (znth tns_q_inv (Z.abs q) 0%Z) / 32768.
Definition damping (d : tns_data) : R :=
  fold_right (fun q w => fold_right (fun c w => (1 - tns_coef c * tns_coef c) * w) 1 q * w) 1 (t_filters d).
Definition sum_squares (x : list R) : R := fold_right (fun v s => v * v + s) 0 x.

Lemma tns_coef_eq q : tns_coef q = rc_val Rops q.
Proof. unfold tns_coef, rc_val. rewrite Rops_dy, p15. destruct (q <? 0)%Z; cbn [f_opp Rops]; field. Qed.
Lemma damping_eq d : damping d = tns_damp d.
Proof.
  unfold damping, tns_damp. induction (t_filters d) as [|q qs IH]; [reflexivity|]. cbn [fold_right]. rewrite IH. f_equal.
  induction q as [|c q IHq]; [reflexivity|]. cbn [fold_right map damp]. rewrite IHq, tns_coef_eq. reflexivity.
Qed.

(** The decoder's filters are stable whatever the bitstream holds: no coefficient of the
    output is over the square root of the energy of the input by a constant of the filters. *)
Theorem C42_stable dt bw nbytes d x :
  frame_cfg dt bw -> (filter_end dt bw <= zlen x)%Z -> tns_ok dt bw nbytes d ->
  0 < damping d /\
  exists y, tns_synthesize Rops dt bw d x = Some y /\ forall i v, rd y i = Some v -> v * v <= sum_squares x / damping d.
Proof. intros C L T. rewrite filter_end_eq in * by exact C. apply frame_cfg_eq in C. rewrite damping_eq. exact (synthesize_stable dt bw nbytes d x C L T). Qed.
Print Assumptions C42_stable.

Example C42_stable_ex : damping (mkTns true [[8; -8]%Z]) < 1 / 10000.
Proof.
  assert (A : tns_coef 8 = 32628 / 32768) by (unfold tns_coef; change (znth tns_q_inv (Z.abs 8) 0%Z) with 32628%Z; cbn [Z.ltb Z.compare]; lra).
  assert (B : tns_coef (-8) = - (32628 / 32768)) by (unfold tns_coef; change (znth tns_q_inv (Z.abs (-8)) 0%Z) with 32628%Z; cbn [Z.ltb Z.compare]; lra).
  unfold damping. cbn [t_filters fold_right]. rewrite A, B. lra.
Qed.

(** The quantization of a coefficient: index of -8 to 8, error under 0.0923, and the values of
    the table are kept. *)
Theorem C42_quantization v : -1 <= v <= 1 ->
  exists q, quantize_rc1 Rops v = Some q /\ (-8 <= q <= 8)%Z /\ Rabs (v - tns_coef q) <= 923 / 10000.
Proof.
  intros H. destruct (quantize_spec v) as (q & E & B & _). exists q. split; [exact E|]. split; [exact B|]. rewrite tns_coef_eq.
  pose proof (quantize_error v q H E). lra.
Qed.
Print Assumptions C42_quantization.

Theorem C42_quantization_exact q : (-8 <= q <= 8)%Z -> quantize_rc1 Rops (tns_coef q) = Some q.
Proof. intros H. rewrite tns_coef_eq. apply quantize_val. exact H. Qed.
Print Assumptions C42_quantization_exact.

Example C42_quantization_ex : quantize_rc1 Rops (- (1 / 2)) = Some (-3)%Z.
Proof.
  destruct (quantize_spec (- (1 / 2))) as (q & E & B & H1 & H2 & H3 & H4). rewrite E. f_equal. specialize (H3 ltac:(lra)). rewrite Rabs_Ropp, Rabs_right in H1, H2 by lra.
  assert (A : (Z.abs q = 3)%Z); [|lia]. unfold thr in *.
  destruct (Z_lt_ge_dec (Z.abs q) 3) as [K|K]; [specialize (H2 2%Z ltac:(lia)); change (znth tns_q_thr 2 0%Z) with 14606%Z in H2; lra|].
  destruct (Z_lt_ge_dec 3 (Z.abs q)) as [K2|K2]; [specialize (H1 3%Z ltac:(lia)); change (znth tns_q_thr 3 0%Z) with 19747%Z in H1; lra|lia].
Qed.
