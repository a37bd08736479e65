(** * C45: the regulation of the count of bits, from a frame to the next one *)
From Coq Require Import Reals ZArith List Bool Lia Lra ZifyBool.
From Flocq Require Import Core.Core IEEE754.BinarySingleNaN.
From Verif Require Import Base BaseProofs ConfigModel FloatModel SideModel SideSpec SpecModel BudgetModel.
From Verif Require Import GainModel GainProofs GainFloat FloatOps FloatLaws F32Model F32Proofs SnsProject SpecEncModel SpecEncFloat SpecEncProofs.
Import ListNotations.
Local Open Scope R_scope.

Definition clip40 (v : R) : R := Rmin (Rmax v (-40)) 40.

Lemma clip40_rnd v : Rabs (clip40 (rnd32 v) - clip40 v) <= 40 * ru + rt.
Proof.
  pose proof rt_small as (Rt & _). pose proof ru_b as (Ru & _).
  destruct (of_int_ok (-40) ltac:(lia)) as (_ & Vm). destruct (of_int_ok 40 ltac:(lia)) as (_ & Vp).
  assert (Gp : generic_format radix2 fexp32 40) by (rewrite <- Vp; apply fmt_val). assert (Gm : generic_format radix2 fexp32 (-40)) by (rewrite <- Vm; apply fmt_val).
  unfold clip40. destruct (Rle_lt_dec 40 v) as [H|H].
  - assert (40 <= rnd32 v) by (apply round_ge_generic; [apply vexp32|apply valid_rnd_N|exact Gp|exact H]).
    rewrite !Rmin_right by (eapply Rle_trans; [|apply Rmax_l]; lra). replace (40 - 40) with 0 by ring. rewrite Rabs_R0. lra.
  - destruct (Rle_lt_dec v (-40)) as [L|L].
    + assert (rnd32 v <= -40) by (apply round_le_generic; [apply vexp32|apply valid_rnd_N|exact Gm|exact L]).
      rewrite !Rmax_right by lra. unfold Rminus. rewrite Rplus_opp_r, Rabs_R0. lra.
    + assert (rnd32 v <= 40) by (apply round_le_generic; [apply vexp32|apply valid_rnd_N|exact Gp|lra]).
      assert (-40 <= rnd32 v) by (apply round_ge_generic; [apply vexp32|apply valid_rnd_N|exact Gm|lra]).
      rewrite !Rmax_left by lra. rewrite !Rmin_left by lra. eapply Rle_trans; [apply rnd_err|]. apply Rplus_le_compat_r. rewrite Rmult_comm. apply Rmult_le_compat_r; [lra|]. apply Rabs_le. lra.
Qed.

Lemma next_off_val st : spec_ok st -> fin (next_off st) /\
  Rabs (val (next_off st) - (4 / 5 * val (s_off st) + / 5 * clip40 (val (s_off st) + IZR (s_spare st)))) <= / 100000.
Proof.
  intros H. pose proof H as (Ho & Hs). destruct (next_off_ok st H) as (Fn & _). split; [exact Fn|]. unfold next_off in *.
  destruct (of_int_ok (s_spare st) ltac:(lia)) as (Fs & Vs). destruct Ho as (Fo & Bo). replace (IZR 41 * p2 0) with 41 in Bo by (cbn; ring).
  assert (S1 : Rabs (IZR (s_spare st)) <= 1048576) by (rewrite <- abs_IZR; apply IZR_le; lia).
  assert (B0 : forall r, Rabs r <= 2000000 -> Rabs (rnd32 r) < p2 128).
  { intros r Hr. apply (rnd_bnd r 2000000 0); [unfold kok; lia|cbn; lra]. }
  destruct (add_val (s_off st) (f32_of_int (s_spare st)) Fo Fs) as (F0 & V0).
  { apply B0. rewrite Vs. eapply Rle_trans; [apply Rabs_triang|]. lra. }
  set (v0 := Add (s_off st) (f32_of_int (s_spare st))) in *. clearbody v0.
  destruct (of_int_ok (-40) ltac:(lia)) as (Fm & Vm). destruct (of_int_ok 40 ltac:(lia)) as (Fp & Vp).
  destruct (max_val v0 _ F0 Fm) as (F1 & V1). destruct (min_val (f32_max v0 (f32_of_int (-40))) _ F1 Fp) as (F2 & V2).
  set (v := f32_min (f32_max v0 (f32_of_int (-40))) (f32_of_int 40)) in *. clearbody v.
  rewrite V1, Vm, Vp, V0, Vs in V2. fold (clip40 (rnd32 (val (s_off st) + IZR (s_spare st)))) in V2.
  pose proof (clip40_rnd (val (s_off st) + IZR (s_spare st))) as C. rewrite <- V2 in C.
  assert (Bc : Rabs (clip40 (val (s_off st) + IZR (s_spare st))) <= 40) by (unfold clip40; apply Rabs_le; split; [apply Rmin_glb; [apply Rmax_r|lra]|apply Rmin_r]).
  set (w := clip40 (val (s_off st) + IZR (s_spare st))) in *. clearbody w.
  pose proof rt_small as (Rt & R1). pose proof p2_100 as R2. pose proof ru_b as (U0 & U).
  destruct (dy_exact 13421773 24) as (Fa & Va); [lia|lia|]. destruct (dy_exact 13421773 26) as (Fb & Vb); [lia|lia|].
  assert (Va2 : val (f32_dy 13421773 24) = 13421773 / 16777216) by (rewrite Va; cbn; lra). assert (Vb2 : val (f32_dy 13421773 26) = 13421773 / 67108864) by (rewrite Vb; cbn; lra).
  assert (P : 1000 <= p2 100) by (apply Rle_trans with (p2 10); [cbn; lra|apply bpow_le; lia]).
  apply Rabs_le_inv in C, Bc, Bo.
  assert (Bv : Rabs (val v) <= 41) by (apply Rabs_le; lra).
  destruct (mul_err (f32_dy 13421773 24) (s_off st) 41 Fa Fo) as (Fx & Ex); [rewrite Va2, (Rabs_pos_eq (13421773 / 16777216)) by lra; pose proof (Rabs_pos (val (s_off st))); assert (Rabs (val (s_off st)) <= 41) by (apply Rabs_le; lra); lra|lra|].
  destruct (mul_err (f32_dy 13421773 26) v 41 Fb F2) as (Fy & Ey); [rewrite Vb2, (Rabs_pos_eq (13421773 / 67108864)) by lra; pose proof (Rabs_pos (val v)); lra|lra|].
  rewrite Va2, (Rabs_pos_eq (13421773 / 16777216)) in Ex by lra. rewrite Vb2, (Rabs_pos_eq (13421773 / 67108864)) in Ey by lra.
  set (a := Mul (f32_dy 13421773 24) (s_off st)) in *. set (b := Mul (f32_dy 13421773 26) v) in *. clearbody a b.
  assert (Bo' : Rabs (val (s_off st)) <= 41) by (apply Rabs_le; lra).
  assert (Ex' : Rabs (val a - 13421773 / 16777216 * val (s_off st)) <= / 400000) by nra.
  assert (Ey' : Rabs (val b - 13421773 / 67108864 * val v) <= / 1000000) by nra.
  clear Ex Ey. apply Rabs_le_inv in Ex', Ey', Bv.
  destruct (add_val a b Fx Fy) as (_ & Vn). { apply B0. apply Rabs_le. lra. }
  rewrite Vn. pose proof (rnd_err (val a + val b)) as E. assert (Ba : Rabs (val a + val b) <= 43) by (apply Rabs_le; lra).
  assert (E' : Rabs (rnd32 (val a + val b) - (val a + val b)) <= / 300000) by nra. clear E. apply Rabs_le_inv in E'. apply Rabs_le. lra.
Qed.

(** For all the rates, from a state with an offset of at most 41 bits: the offset becomes 4/5 of itself and
    1/5 of the sum with the bits left by the last frame, limited to 40 (to 1/100000), and the bits left are those of the
    budget after the first quantization; both are null when the least gain is used or the
    spectrum is null ([reset]). *)
Theorem C45_regulation nan dt sr nbytes pitch tns st x side y st' :
  is_finite (s_off st) = true -> Rabs (B2R (s_off st)) <= 41 -> (Z.abs (s_spare st) <= 2 ^ 20)%Z ->
  analyze32 nan dt sr nbytes pitch tns st x = Some (side, y, st') ->
  let budget := spec_budget dt sr nbytes pitch tns in
  exists off g_int g_min reset x1 n1 nq bits lsb,
    is_finite off = true /\ Rabs (B2R off) <= 41 /\
    Rabs (B2R off - (4 / 5 * B2R (s_off st) + / 5 * clip40 (B2R (s_off st) + IZR (s_spare st)))) <= / 100000 /\
    estimate32 nan dt sr nbytes budget off (gain_offset sr nbytes) x = Some (g_int, g_min, reset) /\
    quantize32 dt sr g_int x = Some (x1, n1) /\ nbits32 dt sr nbytes x1 n1 0 = Some (nq, bits, lsb) /\
    (reset = true -> B2R (s_off st') = 0 /\ s_spare st' = 0%Z) /\
    (reset = false -> s_off st' = off /\ s_spare st' = (budget - bits)%Z).
Proof.
  intros F B S E budget. assert (H : spec_ok st) by (split; [split; [exact F|unfold val; cbn; lra]|exact S]).
  destruct (next_off_val st H) as (Fn & En). destruct (next_off_ok st H) as (_ & Bn). unfold fin, val in *.
  unfold analyze32 in E. cbv zeta in E. fold budget in E.
  destruct (estimate32 nan dt sr nbytes budget (next_off st) (gain_offset sr nbytes) x) as [[[g_int g_min] reset]|] eqn:E1; [|discriminate E]. cbn [bind] in E.
  destruct (quantize32 dt sr g_int x) as [[x1 n1]|] eqn:E2; [|discriminate E]. cbn [bind] in E.
  destruct (nbits32 dt sr nbytes x1 n1 0) as [[[nq bits] lsb]|] eqn:E3; [|discriminate E]. cbn [bind] in E.
  destruct (adjust_gain _ _ _ _ _ _) as [g|]; [|discriminate E]. cbn [bind] in E.
  destruct (if (g =? 0)%Z then Some (x1, nq) else quantize32 dt sr g x1) as [[x2 n2]|]; [|discriminate E]. cbn [bind] in E.
  destruct (nbits32 dt sr nbytes x2 n2 budget) as [[[nq2 bits2] lsb2]|]; [|discriminate E]. cbn [bind] in E.
  assert (X : st' = if reset then mkSpecSt c0 0 else mkSpecSt (next_off st) (budget - bits)) by congruence. subst st'.
  exists (next_off st), g_int, g_min, reset, x1, n1, nq, bits, lsb. repeat (split; [first [assumption|cbn in Bn; lra]|]).
  split; intros ->; split; reflexivity.
Qed.
Print Assumptions C45_regulation.

(** 2.5 ms at 8 kHz, 30 bytes: 2 frames; 17 bits are left by the first one, the offset of the second is then near 17/5;
    the null spectrum sets both to 0. *)
Definition reg_x : list f32 := map f32_of_int [900; -700; 350; 20; -15; 120; 60; -33; 8; 3; -2; 1; 5; -4; 0; 2; 1; 0; -1; 0]%Z.
Definition near5 (v : f32) (z : Z) : bool := match f32_units v with Some u => (Z.abs (5 * u - z * one) <=? one / 1000)%Z | None => false end.
Example C45_regulation_example :
  let tns := mkTns false [[]] in
  match analyze32 0 0 0 30 false tns spec_init reg_x with
  | Some (_, _, st1) =>
      match analyze32 0 0 0 30 false tns st1 reg_x, analyze32 0 0 0 30 false tns (mkSpecSt (f32_of_int 5) 9) (repeat c0 20) with
      | Some (_, _, st2), Some (_, _, st3) => (s_spare st1 =? 17)%Z && near5 (s_off st1) 0 && near5 (s_off st2) 17 && (s_spare st3 =? 0)%Z && near5 (s_off st3) 0
      | _, _ => false
      end
  | None => false
  end = true.
Proof. vm_compute. reflexivity. Qed.
