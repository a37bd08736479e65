(** * C37 on the coefficients, for the high resolution modes *)
From Coq Require Import Reals ZArith List Bool Lia Lra ZifyBool.
From Flocq Require Import Core.Core IEEE754.BinarySingleNaN.
From Verif Require Import Base BaseProofs ConfigModel FloatModel GainModel GainProofs GainFloat P_Gain FloatOps FloatLaws F32Model F32Proofs SpecEncModel SpecEncFloat SpecEncProofs GainLevelSpec GainSpectrum GainFloor.
Import ListNotations.
Local Open Scope R_scope.

(** C37: as [C37_estimate], for the high resolution modes. The levels are those of the energies
    of the blocks with a noise floor [nf] added, the largest magnitude times 2^-(reg_bits +
    low_bits). With [low_bits] defined the estimation has one way to be undefined, the overflow
    of the sum of the costs (see [C37_overflow_refuted]): the theorem says when. *)
Theorem C37_estimate_hr nan dt sr nbytes budget (off : f32) (x : list f32) :
  let g_off := gain_offset sr nbytes in
  let gain g := Rpower 10 (IZR g / 28) in
  (0 <= dt <= 3)%Z -> (5 <= sr < 7)%Z -> (0 <= nbytes <= 625)%Z -> (0 < budget <= 5000)%Z -> is_finite off = true -> Rabs (B2R off) <= 41 ->
  zlen x = c_ne dt sr -> Forall (fun v : f32 => is_finite v = true /\ Rabs (B2R v) <= 1480000) x ->
  (low_bits dt x = None -> estimate32 nan dt sr nbytes budget off g_off x = None) /\
  forall low, low_bits dt x = Some low ->
  (0 <= low <= 8)%Z /\
  let floor := / 2 ^ Z.to_nat (reg_bits dt sr nbytes + low) in
  exists nf db nbits,
    (Forall (fun v : f32 => Rabs (B2R v) <= / 2 ^ 50 \/ Rabs (B2R v) * floor <= (1 + / 300000) * nf) x /\
     0 <= nf /\ (nf <= / 2 ^ 50 \/ Exists (fun v : f32 => (1 - / 300000) * nf <= Rabs (B2R v) * floor) x)) /\
    zlen db = (c_ne dt sr / 4)%Z /\
    (forall k, (0 <= k < c_ne dt sr / 4)%Z -> Rabs (IZR (znth db k 0%Z) / 65536 - level (block_sum x k + nf)) <= 15 / 10000) /\
    (0 <= IZR budget + B2R off -> Rabs (IZR nbits - (IZR budget + B2R off)) <= 501 / 1000) /\ (IZR budget + B2R off < 0 -> (nbits <= 0)%Z) /\
    ((INT_MAX < cost ((127 - g_off) * k_20_28) db)%Z -> estimate32 nan dt sr nbytes budget off g_off x = None) /\
    ((cost ((127 - g_off) * k_20_28) db <= INT_MAX)%Z -> exists g0 gm (z : bool),
      estimate32 nan dt sr nbytes budget off g_off x = Some ((if z then gm else Z.max g0 gm), gm, ((g0 <? gm)%Z || z)%bool) /\
      least (- g_off) (255 - g_off) (fun g => (cost (g * k_20_28) db <= nbits * k_1u4)%Z) g0 /\
      (- g_off <= gm <= 255 - g_off)%Z /\
      ((gm = 255 - g_off)%Z \/ Forall (fun v : f32 => Rabs (B2R v) <= (1 + / 50000) * (32767 * 256 * gain gm)) x) /\
      ((gm = - g_off)%Z \/ Exists (fun v : f32 => (1 - / 50000) * (32767 * 256 * gain (gm - 1)%Z) <= Rabs (B2R v)) x) /\
      (z = true -> Forall (fun v : f32 => Rabs (B2R v) <= / 2 ^ 50) x)).
Proof.
  cbv zeta. intros Hd Hs Hnb Hbud Fo Bo Hlen Hx. assert (Hr : is_hr sr = true) by (unfold is_hr, SRATE_48K_HR; lia).
  destruct (ne_hr dt sr Hd Hs) as (E4 & En). pose proof (gain_offset_range sr nbytes ltac:(lia) ltac:(lia)) as Ho.
  assert (Hxb : Forall (fun v : f32 => fin v /\ Rabs (val v) <= x_bound) x) by exact Hx.
  split; [intros EL; unfold estimate32, noise_floor; rewrite Hr, EL; reflexivity|]. intros low EL. pose proof (low_bits_range dt x low Hd Hxb ltac:(lia) EL) as RL. split; [exact RL|].
  pose proof (reg_bits_range dt sr nbytes) as RR.
  destruct (noise_floor_ok nan dt sr nbytes x low Hd Hr Hxb ltac:(lia) EL) as (nf & En2 & Fn & Bn & Vn).
  assert (L4 : length x = (4 * Z.to_nat (c_ne dt sr / 4))%nat) by (unfold zlen in Hlen; Z.div_mod_to_equations; lia).
  destruct (levels_nf nan nf Fn Bn (Z.to_nat (c_ne dt sr / 4)) x L4 Hxb) as (es & db & Ee & Ed & Ld & Hdb & LV). rewrite Z2Nat.id in LV by (apply Z.div_pos; lia).
  destruct (count_ok budget off Hbud Fo Bo) as (nbits & Et & Bt & T1 & T2).
  assert (Zd : zlen db = (c_ne dt sr / 4)%Z) by (unfold zlen; rewrite Ld; apply Z2Nat.id, Z.div_pos; lia).
  assert (Hi : gain_inputs sr nbytes nbits budget db).
  { unfold gain_inputs. split; [lia|]. split; [lia|]. split; [lia|]. split; [lia|]. split; [rewrite Zd; Z.div_mod_to_equations; lia|exact Hdb]. }
  destruct (x_max_ok x x_bound Hxb) as (Fm & Pm & M).
  { unfold x_bound. apply Rle_trans with (p2 60); [cbn; lra|apply bpow_le; lia]. }
  { unfold x_bound. lra. }
  pose proof (x_max_attained x Hxb) as MA. cbv zeta in MA.
  unfold estimate32. rewrite En2. cbn [bind]. rewrite Ee. cbn [bind]. rewrite Ed. cbn [bind]. rewrite Et. cbn [bind].
  set (xm := Bsqrt mode_NE (square_max x)) in *. clearbody xm.
  assert (P50 : p2 (-50) = / 2 ^ 50) by (apply (p2_pow 50)). pose proof (bpow_gt_0 radix2 (-50)) as P50p.
  exists (val nf), db, nbits.
  assert (FL : / 2 ^ Z.to_nat (reg_bits dt sr nbytes + low) = p2 (- (reg_bits dt sr nbytes + low))) by (rewrite <- p2_pow, Z2Nat.id by lia; reflexivity).
  rewrite FL. set (fl := p2 (- (reg_bits dt sr nbytes + low))) in *. assert (Pf : 0 < fl <= / 64) by (split; [apply bpow_gt_0|change (/ 64) with (p2 (-6)); apply bpow_le; lia]). clearbody fl. clear FL. apply Rabs_le_inv in Vn.
  assert (Pxf : 0 <= val xm * fl) by (apply Rmult_le_pos; lra).
  split; [|split; [exact Zd|split; [exact LV|split; [exact T1|split; [exact T2|split]]]]].
  - split; [|split; [apply Bn|]].
    + rewrite <- P50. eapply Forall_impl; [|exact M]. intros v [A|A]; fold (val v) in *; [left; exact A|right]. apply Rle_trans with ((1 + / 1000000) * (val xm * fl)); [rewrite <- Rmult_assoc; apply Rmult_le_compat_r; lra|lra].
    + destruct (Rle_or_lt (p2 (-50)) (val xm)) as [C|C].
      * right. destruct (MA C) as (v & I & A). apply Exists_exists. exists v. split; [exact I|]. fold (val v). apply Rle_trans with ((1 - / 1000000) * (val xm * fl)); [lra|]. rewrite <- Rmult_assoc. apply Rmult_le_compat_r; lra.
      * left. rewrite <- P50. assert (val xm * fl <= p2 (-50) * / 64) by (apply Rmult_le_compat; lra). lra.
  - intros V. destruct (estimate_ok sr nbytes nbits budget db (fits32 sr xm) (Beqb xm c0) Hi) as [(_ & E)|(C & _)]; [exact E|lia].
  - intros V. destruct (estimate_least sr nbytes nbits budget db (fits32 sr xm) (Beqb xm c0) Hi V) as (g0 & gm & EG & LG & RG & M1 & M2).
    exists g0, gm, (Beqb xm c0). rewrite EG. split; [|split; [exact LG|split; [exact RG|split; [|split]]]].
    + f_equal. f_equal. f_equal. destruct (Beqb xm c0); [rewrite orb_true_r; reflexivity|]. rewrite orb_false_r. destruct (Z.ltb_spec g0 gm); lia.
    + destruct M1 as [M1|M1]; [left; exact M1|right]. pose proof (proj1 (fits32_hr sr xm gm Hr ltac:(lia) Fm) M1) as W. fold (ten gm).
      assert (T255 : / 10000000000 <= ten gm). { pose proof (ten_opp gm) as O. pose proof (ten_big (- gm) ltac:(lia)) as TB. pose proof (ten_pos gm). apply Rmult_le_reg_r with (ten (- gm)); [lra|]. rewrite O. lra. }
      assert (P40 : p2 (-50) <= / 1000000000000) by (apply Rle_trans with (p2 (-40)); [apply bpow_le; lia|cbn; lra]).
      eapply Forall_impl; [|exact M]. intros v [A|A]; fold (val v) in *; lra.
    + destruct M2 as [M2|M2]; [left; exact M2|]. destruct (Z.eq_dec gm (- gain_offset sr nbytes)) as [E|E]; [left; exact E|right].
      pose proof (proj2 (fits32_hr sr xm (gm - 1) Hr ltac:(lia) Fm) M2) as W. fold (ten (gm - 1)).
      assert (T255 : / 10000000000 <= ten (gm - 1)). { pose proof (ten_opp (gm - 1)) as O. pose proof (ten_big (- (gm - 1)) ltac:(lia)) as TB. pose proof (ten_pos (gm - 1)). apply Rmult_le_reg_r with (ten (- (gm - 1))); [lra|]. rewrite O. lra. }
      assert (P40 : p2 (-50) <= / 1000000000000) by (apply Rle_trans with (p2 (-40)); [apply bpow_le; lia|cbn; lra]).
      destruct MA as (v & I & A); [lra|]. apply Exists_exists. exists v. split; [exact I|]. fold (val v). nra.
    + intros Z0. rewrite Beqb_correct in Z0 by (try exact Fm; reflexivity). change (B2R c0) with 0 in Z0. fold (val xm) in Z0. destruct (Req_bool_spec (val xm) 0) as [Z1|Z1]; [|discriminate].
      rewrite <- P50. eapply Forall_impl; [|exact M]. intros v [A|A]; fold (val v) in *; [exact A|]. rewrite Z1 in A. lra.
Qed.
Print Assumptions C37_estimate_hr.

(** 2.5 ms at 48 kHz, 75 bytes. *)
Definition ex_first (n : nat) (a : Z) : list f32 := f32_of_int a :: repeat c0 (n - 1).
Example C37_estimate_hr_example :
  zlen (ex_first 120 10000) = c_ne 0 5 /\ forallb (fun v => is_finite v) (ex_first 120 10000) = true /\ low_bits 0 (ex_first 120 10000) = Some 0%Z /\
  estimate32 0 0 5 75 500 c0 (gain_offset 5 75) (ex_first 120 10000) = Some (-15, -81, false)%Z.
Proof. split; [reflexivity|]. split; [reflexivity|]. split; vm_compute; reflexivity. Qed.

(** Refuted: [low_bits] is not always defined. With the energy in the first coefficient alone,
    the quotient of line 117 of src/spec.c is above INT_MAX, and its conversion to int is
    undefined. *)
Theorem C37_low_bits_refuted : exists dt sr nbytes x,
  (0 <= dt <= 3)%Z /\ (5 <= sr < 7)%Z /\ zlen x = c_ne dt sr /\ forallb (fun v : f32 => is_finite v && Bleb (Babs v) (f32_of_int 60000))%bool x = true /\
  low_bits dt x = None /\ forall nan, estimate32 nan dt sr nbytes 2000 c0 (gain_offset sr nbytes) x = None.
Proof.
  exists 3%Z, 5%Z, 300%Z, (ex_first 480 60000). split; [lia|]. split; [lia|]. split; [reflexivity|]. split; [vm_compute; reflexivity|].
  assert (L : low_bits 3 (ex_first 480 60000) = None) by (vm_compute; reflexivity). split; [exact L|]. intros nan. unfold estimate32, noise_floor. change (is_hr 5) with true. cbn iota. rewrite L. reflexivity.
Qed.
Print Assumptions C37_low_bits_refuted.
