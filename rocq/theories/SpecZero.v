(** * Analysis of a null spectrum in binary32: nothing is coded
    For all rates, high resolution included. *)
From Coq Require Import Reals ZArith List Bool Lia Lra ZifyBool.
From Flocq Require Import Core.Core IEEE754.BinarySingleNaN.
From Verif Require Import Base BaseProofs ConfigModel ConfigProofs FloatModel FloatProofs ResidualModel ResidualSpec ResidualModes SideModel SideSpec SpecModel SpecSpec BudgetModel BudgetSpec BudgetFrame P_Budget.
From Verif Require Import GainModel GainProofs GainFloat P_Gain NoiseModel NoiseSpec NoiseHoles P_Noise P_Silence FloatOps FloatLaws F32Model F32Proofs SnsProject SpecEncModel SpecEncFloat SpecEncProofs MdctFloat.
Import ListNotations.
Local Open Scope R_scope.

Lemma zero_abs x : zero32 x -> Babs x = B754_zero false.
Proof. intros (s & ->). reflexivity. Qed.
Lemma zfin x : zero32 x -> fin x. Proof. intros (s & ->). reflexivity. Qed.
Lemma zero_max x y : zero32 x -> zero32 y -> zero32 (f32_max x y).
Proof. intros (s & ->) (t & ->). destruct s, t; eexists; reflexivity. Qed.
Lemma square_max_zero x : Forall zero32 x -> zero32 (square_max x).
Proof.
  intros H. unfold square_max. assert (G : forall m, zero32 m -> zero32 (fold_left (fun m v => f32_max m (Mul v v)) x m)).
  { induction H as [|v x Hv _ IH]; intros m Hm; cbn [fold_left]; [exact Hm|]. apply IH, zero_max; [exact Hm|]. apply zero_mul; [exact Hv|apply zfin, Hv]. }
  apply G. exact zero_0.
Qed.
Lemma zero_sqrt x : zero32 x -> zero32 (Bsqrt mode_NE x).
Proof. intros (s & ->). exists s. reflexivity. Qed.
Lemma zero_units x : zero32 x -> f32_units x = Some 0%Z.
Proof. intros (s & ->). reflexivity. Qed.
Lemma zeros_units x : Forall zero32 x -> all_some (map f32_units x) = Some (repeat 0%Z (length x)).
Proof. induction 1 as [|v x Hv _ IH]; [reflexivity|]. cbn [map all_some length repeat]. rewrite (zero_units v Hv). cbn [bind]. rewrite IH. reflexivity. Qed.

(** ** The noise floor *)
Definition e5 : f32 := f32_dy 2748779 38.
Lemma add_zero_e5 z : zero32 z -> Add e5 z = e5.
Proof.
  intros (s & ->). assert (G : forall x : f32, is_finite_strict x = true -> Add x (B754_zero s) = x) by (intros [| | |] H; try discriminate H; reflexivity).
  apply G. vm_compute. reflexivity.
Qed.
Lemma count_up k i : (0 <= i < 2 ^ 23)%Z -> fin k -> val k = IZR i -> fin (Add k (f32_dy 1 0)) /\ val (Add k (f32_dy 1 0)) = IZR (i + 1).
Proof.
  intros Hi F V. destruct (of_int_ok 1) as (F1 & V1); [lia|]. unfold f32_of_int in *.
  assert (R : rnd32 (val k + val (f32_dy 1 0)) = IZR (i + 1)).
  { rewrite V, V1, <- plus_IZR. replace (IZR (i + 1)) with (IZR (i + 1) * p2 0) by (cbn; ring). apply round_generic; [apply valid_rnd_N|]. apply fmt_Zp; lia. }
  destruct (add_val k (f32_dy 1 0) F F1) as (A & B).
  { rewrite R. rewrite <- abs_IZR. apply Rle_lt_trans with (IZR (2 ^ 23)); [apply IZR_le; lia|]. change (IZR (2 ^ 23)) with (p2 23). apply bpow_lt. lia. }
  split; [exact A|]. rewrite B. exact R.
Qed.
Lemma centroid_zero x : forall k i, Forall zero32 x -> (0 <= i)%Z -> (i + zlen x < 2 ^ 23)%Z -> fin k -> val k = IZR i -> centroid k e5 e5 x = (e5, e5).
Proof.
  induction x as [|v x IH]; intros k i H Hi Hn F V; cbn [centroid]; [reflexivity|]. inversion H as [|? ? Hv Hx]. subst.
  assert (Ln : zlen (v :: x) = (zlen x + 1)%Z) by (unfold zlen; cbn [length]; lia). rewrite Ln in Hn. assert (0 <= zlen x)%Z by (unfold zlen; lia).
  destruct (count_up k i ltac:(lia) F V) as (A & B).
  rewrite !add_zero_e5; [apply (IH _ (i + 1)%Z); try assumption; lia| |].
  - rewrite (zero_abs v Hv). apply zero_mul; [eexists; reflexivity|exact F].
  - rewrite (zero_abs v Hv). eexists. reflexivity.
Qed.
Lemma low_bits_zero dt x : (0 <= dt <= 3)%Z -> Forall zero32 x -> (zlen x < 2 ^ 22)%Z -> exists l, low_bits dt x = Some l /\ (0 <= l <= 8)%Z.
Proof.
  intros Hd Hx Hn. unfold low_bits. fold e5. rewrite (centroid_zero x c0 0 Hx) by (try lia; reflexivity).
  assert (C : forallb (fun dt => match (do m <- f32_round (Div (Mul (f32_dy 13421773 23) e5) (Mul (f32_of_int (1 + dt)) e5)); cint (8 - Z.min m 8)) with Some l => (0 <=? l) && (l <=? 8) | None => false end)%Z [0; 1; 2; 3]%Z = true) by (vm_compute; reflexivity).
  rewrite forallb_forall in C. specialize (C dt ltac:(cbn [In]; lia)). cbv beta in C.
  match goal with |- exists l, ?o = Some l /\ _ => destruct o as [l|] end; [|discriminate C]. exists l. split; [reflexivity|]. lia.
Qed.
Lemma ldexp_zero nan x e : zero32 x -> ldexp32 nan x e = Some x.
Proof. intros (s & ->). unfold ldexp32. destruct s; reflexivity. Qed.
Lemma exp2_fin nan l : (0 <= l <= 8)%Z -> fin (exp2_32 nan (f32_of_int (- l))).
Proof.
  intros H. assert (C : forallb (fun l => is_finite (exp2_32 nan (f32_of_int (- l)))) [0; 1; 2; 3; 4; 5; 6; 7; 8]%Z = true) by (vm_compute; reflexivity).
  rewrite forallb_forall in C. apply C. cbn [In]. lia.
Qed.
Lemma noise_floor_zero nan dt sr nbytes x m : (0 <= dt <= 3)%Z -> Forall zero32 x -> (zlen x < 2 ^ 22)%Z -> zero32 m -> exists f, noise_floor nan dt sr nbytes x m = Some f /\ zero32 f.
Proof.
  intros Hd Hx Hn Hm. unfold noise_floor. destruct (is_hr sr); [|exists c0; split; [reflexivity|exact zero_0]].
  destruct (low_bits_zero dt x Hd Hx Hn) as (l & El & Hl). rewrite El. cbn [bind]. rewrite ldexp_zero by exact Hm. cbn [bind]. eexists. split; [reflexivity|].
  apply zero_mul; [exact Hm|]. apply exp2_fin, Hl.
Qed.

(** ** The energies *)
Lemma energies_zero n : forall x, Forall zero32 x -> (4 * n <= length x)%nat -> exists es, block_energies n x = Some es /\ length es = n /\ Forall zero32 es.
Proof.
  induction n as [|n IH]; intros x H L; cbn [block_energies]; [exists []; auto|].
  destruct x as [|a [|b [|c [|d r]]]]; try (cbn [length] in L; lia).
  repeat match goal with H : Forall _ (_ :: _) |- _ => let P := fresh "Z0" in pose proof (Forall_inv H) as P; apply Forall_inv_tail in H end.
  destruct (IH r H) as (es & E & Le & He); [cbn [length] in L; lia|]. rewrite E. cbn [bind]. eexists. split; [reflexivity|]. split; [cbn [length]; lia|].
  constructor; [|exact He]. repeat apply zero_add; apply zero_mul; try assumption; apply zfin; assumption.
Qed.
Lemma db_zero nan nf e : zero32 nf -> zero32 e -> block_db nan nf e = Some (-6553639)%Z.
Proof.
  intros Hn He. unfold block_db. pose proof (zero_add e nf He Hn) as (s & ->).
  assert (M : f32_max (B754_zero s) (f32_dy 14411519 57) = f32_dy 14411519 57).
  { unfold f32_max. change (f32_nan (B754_zero s)) with false. assert (E1 : f32_nan (f32_dy 14411519 57) = false) by (vm_compute; reflexivity).
    assert (E2 : Bltb (B754_zero s) (f32_dy 14411519 57) = true) by (destruct s; vm_compute; reflexivity). rewrite E1, E2. reflexivity. }
  rewrite M. vm_compute. reflexivity.
Qed.
Lemma dbs_zero nan nf es : zero32 nf -> Forall zero32 es -> all_some (map (block_db nan nf) es) = Some (repeat (-6553639)%Z (length es)).
Proof. intros Hn. induction 1 as [|e es He _ IH]; [reflexivity|]. cbn [map all_some length repeat]. rewrite (db_zero nan nf e Hn He). cbn [bind]. rewrite IH. reflexivity. Qed.

(** ** The gain *)
Lemma fits_zero sr m g : zero32 m -> (-255 <= g <= 255)%Z -> fits32 sr m g = true.
Proof.
  intros (s & ->) Hg. unfold fits32. destruct (gain32_ok g Hg) as (a & Ea & Fa & Va). rewrite Ea. pose proof (ten_big g ltac:(lia)) as T.
  set (k := if is_hr sr then _ else _). assert (Hk : (1 <= k <= 2 ^ 23)%Z) by (unfold k; destruct (is_hr sr); lia). clearbody k.
  destruct (of_int_ok k) as (Fk & Vk); [lia|].
  assert (Hkr : 1 <= IZR k <= 8388608) by (split; apply IZR_le; lia). pose proof lim_2 as L2.
  assert (Pa : 0 < val a) by nra. assert (Ba : val a <= 20000000000) by nra.
  assert (Lo : val a <= rnd32 (val (f32_of_int k) * val a)).
  { rewrite Vk. replace (val a) with (rnd32 (val a)) at 1; [apply round_le; [apply vexp32|apply valid_rnd_N|nra]|]. apply round_generic; [apply valid_rnd_N|]. apply generic_format_B2R. }
  assert (Hi : rnd32 (val (f32_of_int k) * val a) <= p2 60).
  { apply round_le_generic; [apply vexp32|apply valid_rnd_N| |].
    - replace (p2 60) with (IZR 1 * p2 60) by ring. apply fmt_Zp; lia.
    - rewrite Vk. change (p2 60) with 1152921504606846976. nra. }
  destruct (mul_val (f32_of_int k) a Fk Fa) as (A & B).
  { rewrite Rabs_pos_eq by lra. eapply Rle_lt_trans; [exact Hi|]. apply bpow_lt. lia. }
  rewrite Bltb_correct by (try reflexivity; exact A). apply Rlt_bool_true. change (B2R (B754_zero s)) with 0. fold (val (Mul (f32_of_int k) a)). rewrite B. lra.
Qed.

Lemma estimate_zero nan dt sr nbytes budget off x : (0 <= dt <= 3)%Z -> (0 <= sr <= 6)%Z -> (0 <= nbytes)%Z -> (0 <= budget <= 5000)%Z -> bnd 41 0 off ->
  (c_ne dt sr mod 4 = 0 /\ 0 <= c_ne dt sr <= 960)%Z -> zlen x = c_ne dt sr -> Forall zero32 x ->
  exists r, estimate32 nan dt sr nbytes budget off (gain_offset sr nbytes) x = Some (- gain_offset sr nbytes, - gain_offset sr nbytes, r)%Z.
Proof.
  intros Hd Hs Hnb Hbud Hoff (E4 & En) Hlen Hx. pose proof (gain_offset_range sr nbytes ltac:(lia) Hnb) as Ho. unfold estimate32.
  set (xm := Bsqrt mode_NE (square_max x)). assert (Zm : zero32 xm) by apply zero_sqrt, square_max_zero, Hx.
  destruct (noise_floor_zero nan dt sr nbytes x xm Hd Hx ltac:(lia) Zm) as (nf & Ef & Zf). rewrite Ef. cbn [bind].
  destruct (energies_zero (Z.to_nat (c_ne dt sr / 4)) x Hx) as (es & Ee & Le & He); [unfold zlen in Hlen; Z.div_mod_to_equations; lia|]. rewrite Ee. cbn [bind].
  rewrite (dbs_zero nan nf es Zf He). cbn [bind]. rewrite Le. set (n := Z.to_nat (c_ne dt sr / 4)).
  assert (Hl : (Z.of_nat n <= 240)%Z) by (unfold n; Z.div_mod_to_equations; lia).
  destruct (trunc_ok (Add (Add (f32_of_int budget) off) (f32_dy 1 1)) 5042) as (nbits & Et & Bt); [lia| |].
  { apply (bnd_weak (5041 + 1) 0); [|right; reflexivity]. apply bnd_add; [unfold kok; lia| |].
    - apply (bnd_add 5000 41); [unfold kok; lia| |exact Hoff]. apply (bnd_weak (Z.abs budget) 0); [apply of_int_bnd; lia|]. apply Rmult_le_compat_r; [apply bpow_ge_0|apply IZR_le; lia].
    - destruct (dy_exact 1 1) as (A & B); [lia|lia|]. split; [exact A|]. rewrite B, Rabs_pos_eq; cbn; lra. }
  rewrite Et. cbn [bind].
  assert (Ez : Beqb xm c0 = true) by (destruct Zm as (s & ->); destruct s; reflexivity). rewrite Ez.
  assert (Hi : gain_inputs sr nbytes nbits budget (repeat (-6553639)%Z n)).
  { split; [lia|]. split; [lia|]. split; [lia|]. split; [lia|].
    split; [unfold zlen; rewrite repeat_length; lia|]. intros e H. apply repeat_spec in H. subst e. vm_compute. split; discriminate. }
  destruct (P_Gain.estimate_ok sr nbytes nbits budget _ (fits32 sr xm) true Hi) as [[V _]|(_ & g & gm & r & E & R1 & R2 & M1 & M2 & P)]; cbv zeta in *.
  - exfalso. pose proof (cost_bound ((127 - gain_offset sr nbytes) * k_20_28) (repeat (-6553639)%Z n) (-6553639)) as B.
    specialize (B ltac:(intros e H; apply repeat_spec in H; lia)).
    replace (zlen (repeat (-6553639)%Z n)) with (Z.of_nat n) in B by (unfold zlen; rewrite repeat_length; reflexivity).
    assert (M : (cost1 (-6553639 - (127 - gain_offset sr nbytes) * k_20_28) <= cost1 (-6553639 - (127 - 255) * k_20_28))%Z).
    { apply cost1_mono. unfold k_20_28. lia. }
    pose proof (cost1_pos (-6553639 - (127 - gain_offset sr nbytes) * k_20_28)) as C0.
    change (cost1 (-6553639 - (127 - 255) * k_20_28)) with 176947%Z in M.
    unfold INT_MAX in V. clear - V B M C0 Hl. nia.
  - set (g_off := gain_offset sr nbytes) in *.
    assert (Egm : (gm = - g_off)%Z). { destruct (Z.eq_dec gm (- g_off)) as [D|D]; [exact D|]. destruct M2 as [M2|M2]; [exact M2|]. rewrite fits_zero in M2 by (try exact Zm; lia). discriminate M2. }
    assert (Eg : g = gm). { destruct P as [P|[P _]]; [exact P|discriminate P]. }
    exists r. rewrite E. subst g gm. reflexivity.
Qed.

(** ** The quantization *)
Lemma pairs_zero lim x : Forall zero32 x -> Bleb lim (B754_zero false) = false -> Forall (fun p => p = (false, false)) (pairs_sig lim x).
Proof.
  intros H Hl. assert (G : forall n x, (length x <= n)%nat -> Forall zero32 x -> Forall (fun p => p = (false, false)) (pairs_sig lim x)).
  { clear x H. induction n as [|n IH]; intros x L H; [destruct x; [constructor|cbn [length] in L; lia]|]. destruct x as [|a [|b r]]; [constructor|constructor|]. cbn [pairs_sig].
    pose proof (Forall_inv H) as Ha. apply Forall_inv_tail in H. pose proof (Forall_inv H) as Hb. apply Forall_inv_tail in H.
    constructor; [rewrite (zero_abs a Ha), (zero_abs b Hb), Hl; reflexivity|]. apply IH; [cbn [length] in L; lia|exact H]. }
  apply (G (length x)); [lia|exact H].
Qed.
Lemma pairs_length lim : forall n x, length x = (2 * n)%nat -> length (pairs_sig lim x) = n.
Proof. induction n as [|n IH]; intros x L; [destruct x; [reflexivity|discriminate L]|]. destruct x as [|a [|b r]]; try (cbn [length] in L; lia). cbn [pairs_sig length]. f_equal. apply IH. cbn [length] in L. lia. Qed.
Lemma count_zero ne : forall s n, Forall (fun p => p = (false, false)) s -> count_nq ne n s = (n - 2 * Z.of_nat (length s))%Z.
Proof. induction s as [|p s IH]; intros n H; cbn [count_nq length]; [lia|]. inversion H. subst. cbn [orb]. rewrite IH by assumption. lia. Qed.
Lemma quantize_zero dt sr g x : (-255 <= g <= 255)%Z -> Forall zero32 x -> (c_ne dt sr mod 2 = 0)%Z -> zlen x = c_ne dt sr ->
  exists y, quantize32 dt sr g x = Some (y, 0%Z) /\ Forall zero32 y /\ zlen y = c_ne dt sr.
Proof.
  intros Hg Hx He Hl. unfold quantize32. destruct (gain32_ok (- g) ltac:(lia)) as (gi & E & Fg & _). rewrite E. cbn [bind].
  set (y := map (fun v => Mul v gi) x). assert (Hy : Forall zero32 y). { unfold y. clear - Hx Fg. induction Hx as [|v x Hv _ IH]; cbn [map]; constructor; [apply zero_mul; assumption|exact IH]. }
  assert (Ly : zlen y = c_ne dt sr) by (unfold y; rewrite zlen_map; exact Hl).
  exists y. split; [|split; assumption]. do 2 f_equal. rewrite count_zero.
  - rewrite (pairs_length _ (Z.to_nat (c_ne dt sr / 2))); unfold zlen in Ly; Z.div_mod_to_equations; lia.
  - apply pairs_zero; [exact Hy|]. destruct (is_hr sr); vm_compute; reflexivity.
Qed.
Lemma nbits_zero dt sr nbytes y b : (0 <= b)%Z -> nbits32 dt sr nbytes y 0 b = Some (0, 0, false)%Z.
Proof.
  intros B. unfold nbits32. cbn [Z.to_nat firstn map all_some bind forallb]. f_equal.
  unfold compute_nbits. destruct (resolve_modes sr nbytes) as [lm hi]. cbn [nbits_pairs].
  set (bb := if (b =? 0)%Z then INT_MAX else (b * 2048)%Z). assert (0 <= bb)%Z by (unfold bb, INT_MAX; destruct (b =? 0)%Z; lia).
  replace (bb <? 0 + 0 * 2048)%Z with false by lia. rewrite andb_false_r. destruct (INT_MAX <=? bb)%Z; reflexivity.
Qed.

Lemma budget_range dt sr bw nbytes tns pitch : (0 <= dt <= 3)%Z -> (0 <= sr <= 6)%Z -> (20 <= nbytes <= 625)%Z -> tns_ok dt bw nbytes tns -> Forall (fun c => c = []) (t_filters tns) ->
  (0 <= spec_budget dt sr nbytes pitch tns <= 5000)%Z.
Proof.
  intros Hd Hs Hn Htn Hf.
  assert (D : (forallb (fun dt => forallb (fun sr => (nbits_nq dt sr <=? 9) && (4 <=? nbits_nq dt sr) && (0 <=? bw_nbits sr) && (bw_nbits sr <=? 3)) [0;1;2;3;4;5;6]) [0;1;2;3] = true)%Z) by (vm_compute; reflexivity).
  rewrite forallb_forall in D. specialize (D dt ltac:(cbn [In]; lia)). cbv beta in D. rewrite forallb_forall in D. specialize (D sr ltac:(cbn [In]; lia)). cbv beta in D.
  assert (T : (0 <= tns_nbits tns <= 2)%Z).
  { destruct Htn as (_ & T & _). unfold tns_nbits.
    destruct (t_filters tns) as [|a [|b [|c r]]]; [destruct (_ && _) in T; discriminate|..| |destruct (_ && _) in T; discriminate];
      repeat match goal with H : Forall _ (_ :: _) |- _ => let X := fresh in pose proof (Forall_inv H) as X; cbv beta in X; subst; apply Forall_inv_tail in H end;
      vm_compute; split; discriminate. }
  unfold spec_budget, nbits_ac, ltpf_nbits, sns_nbits. unfold b2z.
  assert (0 <= (nbytes - 1) / 160)%Z by (apply Z.div_pos; lia).
  destruct (is_hr sr), pitch; lia.
Qed.

(** The analysis of a null spectrum: no coefficient, gain index 0, noise factor 7. *)
Lemma spectrum_zero nan dt sr bw nbytes pitch tns st x : (0 <= dt <= 3)%Z -> bw_ok sr bw -> (20 <= nbytes <= 625)%Z ->
  tns_ok dt bw nbytes tns -> Forall (fun c => c = []) (t_filters tns) -> spec_ok st -> zlen x = c_ne dt sr -> Forall zero32 x ->
  exists st', spectrum32 nan dt sr bw nbytes pitch tns st x = Some (mkSide 0 false 0, 7%Z, [], st') /\ spec_ok st'.
Proof.
  intros Hd Hbw Hn Htn Hf Hst Hlen Hx. pose proof Hbw as (Hs & _). destruct (band_in dt sr bw Hd Hbw) as (Bw0 & Bw).
  pose proof (budget_range dt sr bw nbytes tns pitch Hd ltac:(lia) Hn Htn Hf) as Hbud.
  assert (NE : (c_ne dt sr mod 4 = 0 /\ 20 <= c_ne dt sr <= 960)%Z).
  { assert (D : (forallb (fun dt => forallb (fun sr => (20 <=? c_ne dt sr) && (c_ne dt sr <=? 960) && (c_ne dt sr mod 4 =? 0)) [0;1;2;3;4;5;6]) [0;1;2;3] = true)%Z) by (vm_compute; reflexivity).
    rewrite forallb_forall in D. specialize (D dt ltac:(cbn [In]; lia)). cbv beta in D. rewrite forallb_forall in D. specialize (D sr ltac:(cbn [In]; lia)). cbv beta in D. lia. }
  pose proof (gain_offset_range sr nbytes ltac:(lia) ltac:(lia)) as Ho. pose proof (next_off_ok st Hst) as Hoff.
  unfold spectrum32, analyze32. set (budget := spec_budget dt sr nbytes pitch tns) in *. clearbody budget.
  destruct (estimate_zero nan dt sr nbytes budget (next_off st) x Hd ltac:(lia) ltac:(lia) Hbud Hoff ltac:(lia) Hlen Hx) as (r & Er). rewrite Er. cbn [bind].
  destruct (quantize_zero dt sr (- gain_offset sr nbytes) x ltac:(lia) Hx ltac:(Z.div_mod_to_equations; lia) Hlen) as (y & Ey & Zy & Ly). rewrite Ey. cbn [bind].
  rewrite nbits_zero by lia. cbn [bind].
  destruct (adjust_ok dt sr (gain_offset sr nbytes + - gain_offset sr nbytes) 0 budget (gain_offset sr nbytes + - gain_offset sr nbytes)) as (a & Ea & Ra & _ & Rb); try lia.
  assert (a = 0%Z) by (specialize (Rb ltac:(lia)); lia). subst a. rewrite Ea. cbn [bind Z.eqb]. rewrite nbits_zero by lia. cbn [bind q_nq].
  rewrite (zeros_units y Zy). cbn [bind]. rewrite silent_noise; [|exact Hd|exact Bw0|unfold zlen in Ly; lia]. cbn [bind].
  set (st' := if r then _ else _). exists st'. split; [do 5 f_equal; lia|].
  unfold st'. destruct r; [apply spec_init_ok|]. split; [exact Hoff|]. cbn [s_spare]. lia.
Qed.
