(** * The decoder on frames of null spectra *)
From Coq Require Import Reals ZArith List Bool Lia Lra ZifyBool.
From Flocq Require Import Core.Core IEEE754.BinarySingleNaN.
From Verif Require Import Base BaseProofs ConfigModel ConfigSpec SideModel SideSpec FrameModel NoiseModel FloatOps FloatLaws F32Model F32Proofs MdctWindows MdctStream MdctFloat SnsModel SnsMain SnsFloat LtpfTables LtpfSpec P_Ltpf TnsModel TnsProofs TnsZero.
From Verif Require Import SynthModel SynthProofs SynthSpec EncShape SpecZero SilentRun.
From Verif Require Import F32Proofs.
Import ListNotations.
Local Open Scope Z_scope.

Section Dec.
Context (nan : Z).
Let fl := f32_ops nan.
Let f0 : f32 := f_z fl 0.

Lemma zeros_zero n : Forall zero32 (repeat f0 n).
Proof. apply Forall_forall. intros v Hv. apply repeat_spec in Hv. subst v. exact zero_0. Qed.

(** ** Concealment *)
Lemma plc_loop_zero alpha : fin alpha -> forall xs seed r, Forall zero32 xs -> plc_loop fl alpha seed xs = Some r -> Forall zero32 (fst r) /\ zlen (fst r) = zlen xs.
Proof.
  intros Fa. induction xs as [|x xs IH]; intros seed r Hx; cbn [plc_loop].
  - intros E. assert (r = ([], seed)) by congruence. subst r. auto.
  - destruct (cint (seed * 12821)) as [m|]; [|intros Q; discriminate Q]. cbn [bind]. destruct (cint (16831 + m)) as [s|]; [|intros Q; discriminate Q]. cbn [bind].
    destruct (plc_loop fl alpha (Z.land s 65535) xs) as [r1|] eqn:E; [|intros Q; discriminate Q]. cbn [bind]. intros Q.
    inversion Hx as [|? ? Z1 Z2]. subst. destruct (IH _ _ Z2 E) as (P1 & P2).
    set (v := f_mul fl alpha _) in Q. assert (Er : r = (v :: fst r1, snd r1)) by congruence. rewrite Er. cbn [fst]. split; [|unfold zlen in *; cbn [length]; lia].
    constructor; [|exact P1]. unfold v. apply zero_mul_l; [exact Fa|]. destruct (_ =? 0); [exact Z1|apply zero_opp, Z1].
Qed.

Definition null_core (dt sr srp : Z) (s : @core f32) : Prop :=
  pb 0 (pf_alpha (k_plc s)) /\ Forall zero32 (k_spectrum s) /\ zlen (k_spectrum s) = c_ne dt sr /\ Forall zero32 (k_overlap s) /\ zlen (k_overlap s) = c_nd dt srp.

Lemma one_pb : pb 0 (f32_dy 1 0).
Proof. apply (pb_dy 1 0 0); [unfold eok; lia|lia|cbn; lia]. Qed.

Definition silent_req (dt sr : Z) (p : option decoded * Z) : Prop := match fst p with Some d => silent_data dt sr (snd p) d | None => True end.

Lemma spectrum_silent dt sr srp o nbytes s r : tns_cfg dt sr -> 0 <= c_ne dt sr -> null_core dt sr srp s -> silent_req dt sr (o, nbytes) ->
  spectrum_of fl dt sr o nbytes s = Some r ->
  let '(p, x, keep) := r in pb 0 (pf_alpha p) /\ Forall zero32 x /\ zlen x = c_ne dt sr /\ Forall zero32 keep /\ zlen keep = c_ne dt sr.
Proof.
  intros C Hne (A & S1 & S2 & O1 & O2) Hq. unfold silent_req in Hq. cbn [fst snd] in Hq. destruct o as [d|]; unfold spectrum_of.
  - destruct Hq as (Hbw & Hsn & (lpc & Et) & Ef). rewrite Ef. cbn [bind]. rewrite Et. set (z := map _ (repeat 0 _)).
    assert (Zz : Forall zero32 z). { unfold z. apply Forall_map, Forall_forall. intros v Hv. apply repeat_spec in Hv. subst v. apply zero_dy. }
    assert (Lz : zlen z = c_ne dt sr) by (unfold z, zlen; rewrite map_length, repeat_length; lia).
    pose proof (tns_synth_none nan dt (d_bw d) lpc z) as ET. fold fl in ET. rewrite ET. cbn [bind].
    set (y := repeat (f_z fl 0) (Z.to_nat (c_ne dt sr))). assert (Ly : zlen y = c_ne dt sr) by (unfold y, zlen; rewrite repeat_length; lia).
    destruct (sns_synthesize_ok fl (f_z fl 0) dt sr (d_sns d) z y C Hsn ltac:(lia) ltac:(lia)) as (scf & y' & E & D1 & D2 & D3). rewrite E. cbn [bind snd].
    destruct (shaping_zero nan (f_z fl) (f_z fl 0) dt sr (d_sns d) scf true z y y' C Hsn D1 D2 ltac:(lia) ltac:(lia) Zz (zeros_zero _) D3) as (L' & Z').
    intros Q. assert (X : r = (plc_suspend fl (k_plc s), y', y')) by congruence. rewrite X. split; [exact one_pb|]. split; [exact Z'|]. split; [lia|]. split; [exact Z'|lia].
  - unfold plc_synthesize. set (k := if _ <? 4 then _ else _). assert (Hk : pb 0 k).
    { unfold k. destruct (_ <? 4); [exact one_pb|]. destruct (_ <? 8); [apply (pb_dy 15099494 24 24)|apply (pb_dy 14260634 24 24)]; try (unfold eok; lia); cbn; lia. }
    clearbody k. assert (Ha : pb 0 (f_mul fl (pf_alpha (k_plc s)) k)) by (apply (pb_mul 0 0); [unfold eok; lia|exact A|exact Hk]).
    destruct (plc_loop fl (f_mul fl (pf_alpha (k_plc s)) k) (pf_seed (k_plc s)) (k_spectrum s)) as [r1|] eqn:E; [|intros Q; discriminate Q]. cbn [bind].
    destruct (plc_loop_zero _ (proj1 Ha) _ _ _ S1 E) as (P1 & P2).
    destruct (cint (pf_count (k_plc s) + 1)) as [cnt|]; [|intros Q; discriminate Q]. cbn [bind fst snd]. intros Q.
    assert (X : r = (mkPlcF (snd r1) cnt (f_mul fl (pf_alpha (k_plc s)) k), fst r1, k_spectrum s)) by congruence. rewrite X. cbn [pf_alpha].
    split; [exact Ha|]. split; [exact P1|]. split; [lia|]. split; [exact S1|exact S2].
Qed.

Lemma frames_silent dt sr srp : has_transform dt srp -> tns_cfg dt sr -> 0 <= sr <= srp -> 0 < c_ne dt sr -> c_ne dt sr <= c_ns dt sr <= c_ns dt srp -> c_ns dt sr mod 4 = 0 ->
  forall fr s xs, null_core dt sr srp s -> Forall (silent_req dt sr) fr -> frames_of fl dt sr srp s fr = Some xs -> Forall (Forall zero32) xs.
Proof.
  intros G1 G2 G3 G4 G5 G6. induction fr as [|[o nb] fr IH]; intros s xs Hs Hq; cbn [frames_of].
  - intros Q. assert (xs = []) by congruence. subst. constructor.
  - inversion Hq as [|? ? Q1 Q2]. subst. unfold frame_of.
    destruct (spectrum_of fl dt sr o nb s) as [[[p x] keep]|] eqn:E; [|intros Q; discriminate Q]. cbn [bind].
    pose proof (spectrum_silent dt sr srp o nb s _ G2 ltac:(lia) Hs Q1 E) as (P1 & P2 & P3 & P4 & P5). destruct Hs as (A & S1 & S2 & O1 & O2).
    set (y := x ++ repeat (f_z fl 0) (Z.to_nat (c_ns dt srp - c_ne dt sr))).
    assert (Zy : Forall zero32 y) by (apply Forall_app; split; [exact P2|apply zeros_zero]).
    assert (Ly : zlen y = c_ns dt srp) by (unfold y, zlen in *; rewrite app_length, repeat_length; lia).
    destruct (inverse_zero nan f0 dt sr srp 0 (k_overlap s) y G1 G3 ltac:(lia) Zy O1 O2 Ly) as (d' & y' & Ei & L1 & L2 & Z1 & Z2).
    unfold f0 in Ei. fold fl in Ei. rewrite Ei. cbn [bind fst snd].
    destruct (frames_of fl dt sr srp (mkCore p keep d') fr) as [xs'|] eqn:Ef; [|intros Q; discriminate Q]. cbn [bind]. intros Q. assert (xs = y' :: xs') by congruence. subst xs.
    constructor; [exact Z2|]. refine (IH _ _ _ Q2 Ef). unfold null_core. cbn [k_plc k_spectrum k_overlap]. auto.
Qed.

(** ** Postfilter *)
Lemma gain_fin g d n : pb 0 g -> pb 0 d -> (Z.of_nat n < 2 ^ 22) -> bnd (1 + Z.of_nat n) 0 (gain Add g d n).
Proof.
  intros Hg Hd. unfold gain. induction n as [|n IH]; intros L; [exact Hg|]. cbn [Nat.iter]. replace (1 + Z.of_nat (S n)) with ((1 + Z.of_nat n) + 1) by lia.
  apply bnd_add; [unfold kok; lia|apply IH; lia|exact Hd].
Qed.
Lemma taps_zero n w lag c y x t : (forall k, 0 <= k < Z.of_nat n -> fin (c k) /\ fin (c (w + k))) -> (forall t, zero32 (y t)) -> (forall t, zero32 (x t)) -> zero32 (taps (f32_dy 0 0) Add Sub Mul n w lag c y x t).
Proof.
  intros Hc Hy Hx. induction n as [|n IH]; cbn [taps]; [exact zero_0|]. destruct (Hc (Z.of_nat n) ltac:(lia)) as (C1 & C2).
  apply zero_add; [apply zero_sub; [apply IH; intros k Hk; apply Hc; lia|apply zero_mul; [apply Hy|exact C1]]|apply zero_mul; [apply Hx|exact C2]].
Qed.
Lemma filtered_zero n t0 w lag c g d x y : (0 < Z.of_nat n -> pb 0 g /\ pb 0 d) -> Z.of_nat n < 2 ^ 22 -> (forall k, 0 <= k < 2 * w -> fin (c k)) ->
  (forall t, zero32 (x t)) -> (forall t, zero32 (y t)) -> forall t, zero32 (filtered (f32_dy 0 0) Add Sub Mul n t0 w lag c g d x y t).
Proof.
  intros Hg. assert (Hg' : forall m, (m < n)%nat -> pb 0 g /\ pb 0 d) by (intros m Hm; apply Hg; lia). clear Hg. intros Hn Hc Hx Hy.
  induction n as [|n IH]; intros t; cbn [filtered]; [apply Hy|].
  destruct (Hg' n ltac:(lia)) as (G1 & G2). destruct (t =? t0 + Z.of_nat n).
  - apply zero_sub; [apply Hx|]. apply zero_mul_l; [apply (gain_fin g d n G1 G2); lia|]. apply taps_zero; [|apply IH; [intros m Hm; apply (Hg' m); lia|lia]|exact Hx].
    intros k Hk. split; apply Hc; lia.
  - apply IH; [intros m Hm; apply (Hg' m); lia|lia].
Qed.
Lemma copied_zero n t0 (x y : Z -> f32) : (forall t, zero32 (x t)) -> (forall t, zero32 (y t)) -> forall t, zero32 (copied n t0 x y t).
Proof. intros Hx Hy t. unfold copied. destruct (_ && _); [apply Hx|apply Hy]. Qed.
Lemma step_pb a n : Z.abs a <= 1 -> 0 < n < 2 ^ 22 -> pb 0 (Div (f32_dy a 0) (f32_dy n 0)).
Proof.
  intros Ha Hn. destruct (dy_exact a 0) as (F1 & V1); [lia|lia|]. destruct (dy_exact n 0) as (F2 & V2); [lia|lia|]. rewrite Rmult_1_r in V1, V2.
  assert (Hn' : (1 <= IZR n)%R) by (apply IZR_le; lia).
  assert (Q : (Rabs (val (f32_dy a 0) / val (f32_dy n 0)) <= 1)%R).
  { rewrite V1, V2. unfold Rdiv. rewrite Rabs_mult. assert ((Rabs (IZR a) <= 1)%R) by (rewrite <- abs_IZR; apply IZR_le; lia).
    rewrite (Rabs_pos_eq (/ IZR n)) by (apply Rlt_le, Rinv_0_lt_compat; lra). assert ((/ IZR n <= 1)%R) by (rewrite <- Rinv_1; apply Rinv_le; lra).
    pose proof (Rabs_pos (IZR a)). assert ((0 < / IZR n)%R) by (apply Rinv_0_lt_compat; lra). nra. }
  assert (B : (Rabs (rnd32 (val (f32_dy a 0) / val (f32_dy n 0))) <= 1)%R).
  { apply abs_round_le_generic; [apply vexp32|apply valid_rnd_N| |exact Q]. replace 1%R with (IZR 1 * p2 0)%R by (cbn; ring). apply fmt_Zp; lia. }
  destruct (div_val (f32_dy a 0) (f32_dy n 0) F1) as (F & V); [rewrite V2; lra| |].
  { eapply Rle_lt_trans; [exact B|]. change 1%R with (p2 0). apply bpow_lt. lia. }
  split; [exact F|]. rewrite V. cbn [bpow]. rewrite Rmult_1_r. exact B.
Qed.

(** The literals of the tables, read as numbers between -1 and 1. *)
Definition literals (lit : Z -> f32) : Prop := forall z, Z.abs z <= 10 ^ 18 -> pb 0 (lit z).

Definition params_ok (w : Z) (p : @params f32) : Prop := f_active p = true -> forall k, 0 <= k < 2 * w -> fin (f_coef p k).

Lemma frame_zero ns nt w t0 p q x y : 0 < nt <= ns -> ns < 2 ^ 20 -> params_ok w p -> params_ok w q -> (forall t, zero32 (x t)) -> (forall t, zero32 (y t)) ->
  forall t, zero32 (LtpfSpec.frame (f32_dy 0 0) Add Sub Mul Div (fun z => f32_dy z 0) ns nt w t0 p q x y t).
Proof.
  intros Hn Hns Hp Hq Hx Hy. unfold LtpfSpec.frame.
  assert (Y : forall t, zero32 ((match f_active p, f_active q with
      | false, true => fade_in (f32_dy 0 0) Add Sub Mul Div (fun z => f32_dy z 0) nt t0 w q x y
      | true, false => fade_out (f32_dy 0 0) Add Sub Mul Div (fun z => f32_dy z 0) nt t0 w p x y
      | true, true =>
          if f_lag p =? f_lag q then constant (f32_dy 0 0) Add Sub Mul Div (fun z => f32_dy z 0) nt t0 w q x y
          else fade_in (f32_dy 0 0) Add Sub Mul Div (fun z => f32_dy z 0) nt t0 w q (fade_out (f32_dy 0 0) Add Sub Mul Div (fun z => f32_dy z 0) nt t0 w p x y) y
      | false, false => copied nt t0 x y
      end) t)).
  { unfold fade_in, fade_out, constant. unfold params_ok in *.
    assert (P0 : pb 0 (f32_dy 0 0)) by (apply zero_pb; [unfold eok; lia|exact zero_0]).
    assert (S : forall a, Z.abs a <= 1 -> pb 0 (Div (f32_dy a 0) (f32_dy nt 0))) by (intros a Ha; apply step_pb; lia).
    destruct (f_active p), (f_active q); [|apply filtered_zero; auto; try lia; intros _; split; [exact one_pb|apply S; lia]|apply filtered_zero; auto; try lia; intros _; split; [exact P0|apply S; lia]|apply copied_zero; assumption].
    destruct (f_lag p =? f_lag q); apply filtered_zero; auto; try lia; try (intros _; split; [first [exact one_pb|exact P0]|apply S; lia]).
    apply filtered_zero; auto; try lia. intros _; split; [exact one_pb|apply S; lia]. }
  set (y1 := match f_active p with true => _ | false => _ end) in *. clearbody y1.
  destruct (f_active q) eqn:Eq; [|apply copied_zero; assumption]. unfold constant. apply filtered_zero; auto; try lia.
  intros H. split; [exact one_pb|]. apply step_pb; lia.
Qed.

Lemma params_fin lit quarters rate hz nbytes data : literals lit -> params_ok (width hz)
  (frame_params (f32_dy 0 0) Sub Mul (fun z => f32_dy z 0) (lit (4 * (E18 / 10))) (lit (5 * (E18 / 100))) (lit (85 * (E18 / 100))) (entry_of lit ltpf_cden) (entry_of lit ltpf_cnum) quarters rate hz nbytes data).
Proof.
  intros HL. unfold params_ok, frame_params. set (l := gain_level quarters rate nbytes). destruct data as [[[|] i]|]; cbn [f_active f_coef]; try discriminate.
  intros Hl k Hk. assert (L0 : 0 <= l < 4) by (split; [unfold l, gain_level; lia|lia]). clearbody l.
  assert (D : forallb (forallb (forallb (fun z => Z.abs z <=? 10 ^ 18))) ltpf_cden && forallb (forallb (forallb (fun z => Z.abs z <=? 10 ^ 18))) ltpf_cnum = true) by (vm_compute; reflexivity).
  apply andb_prop in D. destruct D as (D1 & D2).
  assert (EE : forall t s r j, forallb (forallb (forallb (fun z => Z.abs z <=? 10 ^ 18))) t = true -> pb 0 (entry_of lit t s r j)).
  { clear - HL. intros t s r j D. unfold entry_of. apply HL.
    assert (N : forall A (P : A -> bool) (l : list A) i d, forallb P l = true -> P d = true -> P (znth l i d) = true).
    { intros A P l i d H Hd. unfold znth. destruct (i <? 0); [exact Hd|]. destruct (nth_in_or_default (Z.to_nat i) l d) as [H1| ->]; [|exact Hd]. rewrite forallb_forall in H. auto. }
    apply Z.leb_le. apply (N Z (fun z => Z.abs z <=? 10 ^ 18)); [|reflexivity]. apply (N (list Z) (forallb (fun z => Z.abs z <=? 10 ^ 18))); [|reflexivity]. apply (N (list (list Z)) (forallb (forallb (fun z => Z.abs z <=? 10 ^ 18)))); [exact D|reflexivity]. }
  assert (Gg : pb 3 (Sub (lit (4 * (E18 / 10))) (Mul (lit (5 * (E18 / 100))) (f32_dy l 0)))).
  { apply (pb_sub 2); [unfold eok; lia|apply (pb_le 0); [apply HL; vm_compute; discriminate|lia]|]. apply (pb_mul 0 2); [unfold eok; lia|apply HL; vm_compute; discriminate|apply (pb_dy l 0 2); [unfold eok; lia|lia|change (2 ^ 2) with 4; lia]]. }
  destruct (k <? width hz).
  - apply (pb_mul 3 0); [unfold eok; lia|exact Gg|apply EE, D1].
  - apply (pb_mul (0 + 3) 0); [unfold eok; lia| |apply EE, D2]. apply (pb_mul 0 3); [unfold eok; lia|apply HL; vm_compute; discriminate|exact Gg].
Qed.

Lemma output_zero lit quarters rate hz x fr : literals lit -> 1 <= quarters <= 4 -> 400 <= hz < 2 ^ 20 -> (forall t, zero32 (x t)) ->
  (forall t, zero32 (fst (spec_output (f_z fl 0) (f_add fl) (f_sub fl) (f_mul fl) (f_div fl) (f_z fl) lit quarters rate hz x fr) t)) /\
  params_ok (width hz) (snd (spec_output (f_z fl 0) (f_add fl) (f_sub fl) (f_mul fl) (f_div fl) (f_z fl) lit quarters rate hz x fr)).
Proof.
  intros HL Hq Hh Hx. unfold spec_output. induction fr as [|[nb data] fr IH]; cbn [output].
  - cbn [fst snd]. split; [intros t; exact zero_0|]. intros H. discriminate H.
  - destruct (output _ _ _ _ _ _ _ _ _ _ _ _ _ _ _ fr) as [y p]. cbn [fst snd] in IH |- *. destruct IH as (I1 & I2). split.
    + assert (1 <= hz / 400 < 2 ^ 12) by (Z.div_mod_to_equations; lia). apply frame_zero; try assumption; [nia|nia|]. apply params_fin, HL.
    + apply params_fin, HL.
Qed.
End Dec.
