(** * C37 on the coefficients: the gain estimated in binary32 *)
From Coq Require Import Reals ZArith List Bool Lia Lra ZifyBool.
From Flocq Require Import Core.Core IEEE754.BinarySingleNaN.
From Verif Require Import Base BaseProofs ConfigModel FloatModel GainModel GainProofs GainFloat P_Gain FloatOps FloatLaws F32Model F32Proofs SpecEncModel SpecEncFloat SpecEncProofs GainLevelSpec GainSpectrum.
Import ListNotations.
Local Open Scope R_scope.

(** C37: the estimation of the gain, from finite coefficients of magnitude at most 1480000,
    for the standard rates. It is defined, and with
    - [db] the levels of the blocks in dB (Q16), to 0.0015,
    - [nbits] the count of bits, the budget and its offset rounded to an integer,
    - [g0] the least gain whose estimated cost [cost] is in the count,
    - [gm] the least gain that puts all the coefficients below the limit of the quantizer,
      to 2.10^-5,
    the gain is the largest of [g0] and [gm] (it is [gm] if the maximum is 0). *)
Theorem C37_estimate nan dt sr nbytes budget (off : f32) (x : list f32) :
  let g_off := gain_offset sr nbytes in
  let gain g := Rpower 10 (IZR g / 28) in
  (0 <= dt <= 3)%Z -> (0 <= sr < 5)%Z -> (0 <= nbytes <= 400)%Z -> (0 < budget <= 5000)%Z -> is_finite off = true -> Rabs (B2R off) <= 41 ->
  zlen x = c_ne dt sr -> Forall (fun v : f32 => is_finite v = true /\ Rabs (B2R v) <= 1480000) x ->
  exists db nbits g0 gm (z : bool),
    estimate32 nan dt sr nbytes budget off g_off x = Some ((if z then gm else Z.max g0 gm), gm, ((g0 <? gm)%Z || z)%bool) /\
    zlen db = (c_ne dt sr / 4)%Z /\
    (forall k, (0 <= k < c_ne dt sr / 4)%Z -> Rabs (IZR (znth db k 0%Z) / 65536 - level (block_sum x k)) <= 15 / 10000) /\
    (0 <= IZR budget + B2R off -> Rabs (IZR nbits - (IZR budget + B2R off)) <= 501 / 1000) /\ (IZR budget + B2R off < 0 -> (nbits <= 0)%Z) /\
    least (- g_off) (255 - g_off) (fun g => (cost (g * k_20_28) db <= nbits * k_1u4)%Z) g0 /\
    (- g_off <= gm <= 255 - g_off)%Z /\
    ((gm = 255 - g_off)%Z \/ Forall (fun v : f32 => Rabs (B2R v) <= (1 + / 50000) * (32767 * gain gm)) x) /\
    ((gm = - g_off)%Z \/ Exists (fun v : f32 => (1 - / 50000) * (32767 * gain (gm - 1)%Z) <= Rabs (B2R v)) x) /\
    (z = true -> Forall (fun v : f32 => Rabs (B2R v) <= / 2 ^ 50) x).
Proof.
  cbv zeta. intros Hd Hs Hnb Hbud Fo Bo Hlen Hx. assert (Hr : is_hr sr = false) by (unfold is_hr, SRATE_48K_HR; lia).
  destruct (ne_even dt sr Hd Hs) as (E4 & En). pose proof (gain_offset_range sr nbytes ltac:(lia) ltac:(lia)) as Ho. set (g_off := gain_offset sr nbytes) in *.
  assert (Hxb : Forall (fun v : f32 => fin v /\ Rabs (val v) <= x_bound) x) by exact Hx.
  assert (Hoff : bnd 41 0 off). { split; [exact Fo|]. fold (val off) in Bo. cbn. lra. }
  unfold estimate32, noise_floor. rewrite Hr. cbn [bind].
  assert (L4 : length x = (4 * Z.to_nat (c_ne dt sr / 4))%nat) by (unfold zlen in Hlen; Z.div_mod_to_equations; lia).
  destruct (energies_ok nan (Z.to_nat (c_ne dt sr / 4)) x L4 Hxb) as (es & db & Ee & Ed & Ld & Hdb).
  rewrite Ee. cbn [bind]. rewrite Ed. cbn [bind].
  pose proof (levels nan _ x L4 Hxb es db Ee Ed) as LV. rewrite Z2Nat.id in LV by (apply Z.div_pos; lia).
  assert (HB : bnd (Z.abs budget) 0 (f32_of_int budget)) by (apply of_int_bnd; lia).
  assert (B1 : bnd 5041 0 (Add (f32_of_int budget) off)).
  { apply (bnd_add 5000 41); [unfold kok; lia| |exact Hoff]. apply (bnd_weak (Z.abs budget) 0); [exact HB|]. apply Rmult_le_compat_r; [apply bpow_ge_0|apply IZR_le; lia]. }
  destruct (dy_exact 1 1) as (Fh & Vh); [lia|lia|]. assert (Vh2 : val (f32_dy 1 1) = / 2) by (rewrite Vh; cbn; lra).
  destruct (of_int_ok budget ltac:(lia)) as (Fb & Vb).
  assert (BB : 1 <= IZR budget <= 5000) by (split; apply IZR_le; lia). fold (val off) in *. apply Rabs_le_inv in Bo.
  assert (A1 : fin (Add (f32_of_int budget) off) /\ Rabs (val (Add (f32_of_int budget) off) - (IZR budget + val off)) <= / 2000).
  { destruct (rnd_bnd (val (f32_of_int budget) + val off) 5041 0 ltac:(unfold kok; lia)) as (_ & C1). { rewrite Vb. cbn. apply Rabs_le. lra. }
    destruct (add_val _ _ Fb Fo C1) as (F1 & V1). split; [exact F1|]. rewrite V1, Vb. eapply Rle_trans; [apply rnd_err|]. pose proof ru_b as U. pose proof rt_small as (_ & R1). pose proof p2_100 as R2.
    assert (ru * Rabs (IZR budget + val off) <= / 16000000 * 5041) by (apply Rmult_le_compat; try lra; [apply Rabs_pos|apply Rabs_le; lra]). lra. }
  destruct A1 as (F1 & V1). set (b1 := Add (f32_of_int budget) off) in *. clearbody b1. apply Rabs_le_inv in V1.
  assert (A2 : bnd 5042 0 (Add b1 (f32_dy 1 1)) /\ Rabs (val (Add b1 (f32_dy 1 1)) - (val b1 + / 2)) <= / 2000).
  { destruct (rnd_bnd (val b1 + val (f32_dy 1 1)) 5042 0 ltac:(unfold kok; lia)) as (C0 & C1). { rewrite Vh2. destruct B1 as (_ & B1). replace (IZR 5041 * p2 0) with 5041 in B1 by (cbn; ring). apply Rabs_le_inv in B1. cbn. apply Rabs_le. lra. }
    destruct (add_val _ _ F1 Fh C1) as (F2 & V2). split; [split; [exact F2|rewrite V2; exact C0]|]. rewrite V2, Vh2. eapply Rle_trans; [apply rnd_err|]. pose proof ru_b as U. pose proof rt_small as (_ & R1). pose proof p2_100 as R2.
    assert (ru * Rabs (val b1 + / 2) <= / 16000000 * 5043) by (apply Rmult_le_compat; try lra; [apply Rabs_pos|apply Rabs_le; lra]). lra. }
  destruct A2 as (B2 & V2). destruct (trunc_near _ 5042 ltac:(lia) B2) as (nbits & Et & Bt & T1 & T2). set (y := Add b1 (f32_dy 1 1)) in *. clearbody y. apply Rabs_le_inv in V2.
  rewrite Et. cbn [bind]. set (xm := Bsqrt mode_NE (square_max x)).
  assert (Hi : gain_inputs sr nbytes nbits budget db).
  { unfold gain_inputs. split; [lia|]. split; [lia|]. split; [lia|]. split; [lia|]. split; [unfold zlen; Z.div_mod_to_equations; lia|]. intros e He. apply Hdb, He. }
  assert (Zd : zlen db = (c_ne dt sr / 4)%Z) by (unfold zlen; rewrite Ld; apply Z2Nat.id, Z.div_pos; lia).
  assert (NO : (cost ((127 - g_off) * k_20_28) db <= INT_MAX)%Z).
  { apply (C37_no_overflow dt sr nbytes db Hd ltac:(unfold SRATE_48K_HR; lia) ltac:(lia) Zd). intros e He. apply Hdb, He. }
  destruct (estimate_least sr nbytes nbits budget db (fits32 sr xm) (Beqb xm c0) Hi NO) as (g0 & gm & EG & LG & RG & M1 & M2). fold g_off in EG, LG, RG, M1, M2.
  exists db, nbits, g0, gm, (Beqb xm c0). rewrite EG.
  destruct (x_max_ok x x_bound Hxb) as (Fm & Pm & M).
  { unfold x_bound. apply Rle_trans with (p2 60); [cbn; lra|apply bpow_le; lia]. }
  { unfold x_bound. lra. }
  fold xm in Fm, Pm, M. pose proof (x_max_attained x Hxb) as MA. cbv zeta in MA. fold xm in MA. clearbody xm.
  assert (P50 : p2 (-50) = / 2 ^ 50) by (apply (p2_pow 50)).
  repeat match goal with |- _ /\ _ => split end.
  - f_equal. f_equal. f_equal. destruct (Beqb xm c0); [rewrite orb_true_r; reflexivity|]. rewrite orb_false_r. destruct (Z.ltb_spec g0 gm); lia.
  - exact Zd.
  - exact LV.
  - intros P. specialize (T1 ltac:(lra)). apply Rabs_le. lra.
  - intros P. destruct (Rle_or_lt (val y) 0) as [Y|Y]; [apply T2; exact Y|]. specialize (T1 ltac:(lra)). apply Z.lt_succ_r, lt_IZR. rewrite succ_IZR. lra.
  - exact LG.
  - apply RG.
  - apply RG.
  - destruct M1 as [M1|M1]; [left; exact M1|right]. pose proof (fits32_value sr xm gm Hr ltac:(lia) Fm M1) as V. fold (ten gm).
    assert (T255 : / 10000000000 <= ten gm). { pose proof (ten_opp gm) as O. pose proof (ten_big (- gm) ltac:(lia)) as TB. pose proof (ten_pos gm). apply Rmult_le_reg_r with (ten (- gm)); [lra|]. rewrite O. lra. }
    assert (P40 : p2 (-50) <= / 1000000000000) by (apply Rle_trans with (p2 (-40)); [apply bpow_le; lia|cbn; lra]).
    eapply Forall_impl; [|exact M]. intros v [A|A]; fold (val v) in *; lra.
  - destruct M2 as [M2|M2]; [left; exact M2|]. destruct (Z.eq_dec gm (- g_off)) as [E|E]; [left; exact E|right].
    pose proof (fits32_not sr xm (gm - 1) Hr ltac:(lia) Fm M2) as V. fold (ten (gm - 1)).
    assert (T255 : / 10000000000 <= ten (gm - 1)). { pose proof (ten_opp (gm - 1)) as O. pose proof (ten_big (- (gm - 1)) ltac:(lia)) as TB. pose proof (ten_pos (gm - 1)). apply Rmult_le_reg_r with (ten (- (gm - 1))); [lra|]. rewrite O. lra. }
    assert (P40 : p2 (-50) <= / 1000000000000) by (apply Rle_trans with (p2 (-40)); [apply bpow_le; lia|cbn; lra]).
    destruct MA as (v & I & A); [lra|]. apply Exists_exists. exists v. split; [exact I|]. fold (val v). nra.
  - intros Z0. rewrite Beqb_correct in Z0 by (try exact Fm; reflexivity). change (B2R c0) with 0 in Z0. fold (val xm) in Z0. destruct (Req_bool_spec (val xm) 0) as [Z1|Z1]; [|discriminate].
    rewrite <- P50. eapply Forall_impl; [|exact M]. intros v [A|A]; fold (val v) in *; [exact A|]. rewrite Z1 in A. pose proof (bpow_gt_0 radix2 (-50)). lra.
Qed.
Print Assumptions C37_estimate.

(** 2.5 ms at 8 kHz, 30 bytes: the first blocks are at 61 and 42 dB; the gain of least cost is
    -11, the limit of the quantizer needs -43. *)
Definition ex_spectrum : list f32 := map f32_of_int [900; -700; 350; 20; -15; 120; 60; -33; 8; 3; -2; 1; 5; -4; 0; 2; 1; 0; -1; 0]%Z.
Definition ex_levels : option (list Z) := do es <- block_energies 5 ex_spectrum; do db <- all_some (map (block_db 0 c0) es); Some (map (fun d => d / 65536)%Z db).
Example C37_estimate_example :
  zlen ex_spectrum = c_ne 0 0 /\ forallb (fun v => is_finite v) ex_spectrum = true /\ is_finite c0 = true /\ Rabs (B2R c0) <= 41 /\
  ex_levels = Some [61; 42; 18; 16; 3]%Z /\ estimate32 0 0 0 30 182 c0 (gain_offset 0 30) ex_spectrum = Some (-11, -43, false)%Z.
Proof.
  split; [reflexivity|]. split; [reflexivity|]. split; [reflexivity|]. split; [change (B2R c0) with 0; rewrite Rabs_R0; lra|]. split; vm_compute; reflexivity.
Qed.
