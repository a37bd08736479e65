(** * C43: energies of the bands, near Nyquist flag and bandwidth detector *)
From Coq Require Import ZArith List Bool Lia QArith Qcanon Reals Lra SpecFloat.
From Verif Require Import Base ConfigModel SideModel SideSpec Tables FloatOps LoopProofs Binary32 RealOps TnsProofs TnsExample BandModel BandProofs.
Import ListNotations.
Local Open Scope Z_scope.

(** The frames of 2.5 to 10 ms ([dt] 0 to 3) and sample rate [sr] (0: 8 kHz, ... 4: 48 kHz, 5 and
    6: high resolution, not with 7.5 ms). [part x lo hi] are the elements lo to hi - 1 of x,
    [mean_square] the mean of their squares, [lim_of dt sr] the bounds of the bands. *)
Definition frame_cfg (dt sr : Z) : Prop := 0 <= dt <= 3 /\ 0 <= sr <= 6 /\ (dt = 2 -> sr <= 4).
Lemma frame_cfg_eq dt sr : frame_cfg dt sr <-> tns_cfg dt sr.
Proof. reflexivity. Qed.

(** The bands: at most 64 (the arrays of the code), none empty, one after the other from the
    first coefficient to the last one. *)
Theorem C43_bands dt sr : frame_cfg dt sr ->
  0 < num_bands dt sr <= MAX_BANDS /\ zlen (lim_of dt sr) = num_bands dt sr + 1 /\
  rd (lim_of dt sr) 0 = Some 0 /\ rd (lim_of dt sr) (num_bands dt sr) = Some (c_ne dt sr) /\
  forall b, 0 <= b < num_bands dt sr ->
    exists lo hi, rd (lim_of dt sr) b = Some lo /\ rd (lim_of dt sr) (b + 1) = Some hi /\ 0 <= lo < hi /\ hi <= c_ne dt sr.
Proof. intros C. destruct (lim_ok dt sr C) as (H1 & H2 & H3 & H4 & H5). repeat (split; [assumption || lia|]). exact H5. Qed.
Print Assumptions C43_bands.

(** Energies, for any float arithmetic: no access out of the spectrum, one energy for each
    band, which is the mean square of its coefficients. *)
Theorem C43_energies (F : Type) (fl : fops F) dt sr x : frame_cfg dt sr -> c_ne dt sr <= zlen x ->
  exists nn e, energy_compute fl dt sr x = Some (nn, e) /\ zlen e = num_bands dt sr /\
    forall b lo hi, 0 <= b < num_bands dt sr -> rd (lim_of dt sr) b = Some lo -> rd (lim_of dt sr) (b + 1) = Some hi ->
      rd e b = Some (mean_square fl (part x lo hi)).
Proof. intros C L. destruct (energy_ok fl dt sr x C L) as (nn & e & E & Le & He & _). exists nn, e. auto. Qed.
Print Assumptions C43_energies.

Example C43_energies_ex :
  let fl := b32_ops (fun x => x) (fun x => x) in
  let x := map (f_z fl) (map Z.of_nat (seq 1 40)) in
  frame_cfg 1 0 /\ c_ne 1 0 = zlen x /\
  exists e, energy_compute fl 1 0 x = Some (false, e) /\ rd e 2 = Some (f_z fl 9) /\ rd e 38 = Some (f_dy fl 3121 1).
Proof. cbv zeta. split; [unfold frame_cfg; lia|]. split; [reflexivity|]. eexists. split; [vm_compute; reflexivity|]. split; reflexivity. Qed.

(** Bandwidth of the frame, for any energies (infinities, NaN): no access is out of the arrays
    and the bandwidth can be coded for the sample rate. *)
Theorem C43_bandwidth_codable (F : Type) (fl : fops F) dt sr e : frame_cfg dt sr -> zlen e = num_bands dt sr ->
  exists bw, bwdet_run fl dt sr e = Some bw /\ bw_ok sr bw.
Proof.
  intros C L. unfold bw_ok. destruct (is_hr sr) eqn:Hr.
  - exists sr. split; [apply bwdet_hr; auto|]. unfold frame_cfg in C. lia.
  - destruct (Z_lt_le_dec 0 sr) as [H|H].
    + destruct (bwdet_ok fl dt sr e C H Hr L) as (c & bw & E & (Hc & _) & D). exists bw. split; [exact E|]. unfold frame_cfg in C. lia.
    + exists sr. split; [apply bwdet_hr; auto|]. unfold frame_cfg in C. lia.
Qed.
Print Assumptions C43_bandwidth_codable.

(** The regions of the detector: region k of a sample rate lies in the bands and over all the
    coefficients of bandwidth k. *)
Theorem C43_regions dt sr k : frame_cfg dt sr -> is_hr sr = false -> 0 <= k < sr ->
  exists lo hi a, rd (bw_regions dt sr) k = Some (lo, hi) /\ 0 <= lo < hi /\ hi <= num_bands dt sr /\
    rd (lim_of dt sr) lo = Some a /\ c_ne dt k <= a.
Proof. intros C Hr Hk. destruct (region_ok dt sr k C Hr Hk) as (lo & hi & a & H1 & H2 & H3 & H4 & H5 & _). exists lo, hi, a. auto. Qed.
Print Assumptions C43_regions.

(** What a bandwidth under the one of the sample rate means: the regions over it are quiet
    (the sum of the energies is under 10 for a band, 20 for region 0), the one under it is not
    and the energies drop about the start of the region over it. *)
Theorem C43_narrow (F : Type) (fl : fops F) dt sr e bw : frame_cfg dt sr -> zlen e = num_bands dt sr ->
  bwdet_run fl dt sr e = Some bw -> bw <> sr ->
  0 <= bw < sr /\
  (forall k lo hi, bw <= k < sr -> rd (bw_regions dt sr) k = Some (lo, hi) ->
     f_le fl (f_z fl ((if k =? 0 then 20 else 10) * (hi - lo))) (fsum fl (part e lo hi)) = false) /\
  (forall lo hi, 0 < bw -> rd (bw_regions dt sr) (bw - 1) = Some (lo, hi) ->
     f_le fl (f_z fl ((if bw - 1 =? 0 then 20 else 10) * (hi - lo))) (fsum fl (part e lo hi)) = true) /\
  exists lo hi tc i a b, rd (bw_regions dt sr) bw = Some (lo, hi) /\ rd bw_tc bw = Some tc /\
    lo - bw_l dt bw + 1 <= i <= lo + 1 /\ rd e (i - bw_l dt bw) = Some a /\ rd e i = Some b /\
    f_lt fl (f_mul fl (f_dy fl tc 19) b) a = true.
Proof.
  intros C L E N. destruct (Z_lt_le_dec 0 sr) as [H|H].
  2:{ rewrite bwdet_hr in E by auto. injection E as <-. contradiction. }
  destruct (is_hr sr) eqn:Hr.
  { rewrite bwdet_hr in E by auto. injection E as <-. contradiction. }
  destruct (bwdet_ok fl dt sr e C H Hr L) as (c & bw' & E' & (Hc & H1 & H2) & D). rewrite E in E'. injection E' as <-.
  destruct D as [(-> & [D|D])|(-> & _)]; [contradiction| |contradiction].
  split; [lia|]. split; [exact H1|]. split; [exact H2|].
  destruct D as (lo & hi & tc & D1 & D2 & i & a & b & Hi & D3 & D4 & D5). exists lo, hi, tc, i, a, b. auto 8.
Qed.
Print Assumptions C43_narrow.

(** When the last region is not quiet the bandwidth is the one of the sample rate. *)
Theorem C43_full (F : Type) (fl : fops F) dt sr e lo hi : frame_cfg dt sr -> zlen e = num_bands dt sr -> is_hr sr = false ->
  rd (bw_regions dt sr) (sr - 1) = Some (lo, hi) -> 1 < sr ->
  f_le fl (f_z fl (10 * (hi - lo))) (fsum fl (part e lo hi)) = true ->
  bwdet_run fl dt sr e = Some sr.
Proof.
  intros C L Hr R H S. destruct (bwdet_ok fl dt sr e C ltac:(lia) Hr L) as (c & bw & E & (Hc & H1 & H2) & D). rewrite E. f_equal.
  destruct D as [(-> & [D|D])|(-> & _)]; auto. destruct (Z.eq_dec c sr) as [A|A]; [exact A|]. exfalso.
  specialize (H1 (sr - 1) lo hi ltac:(lia) R). unfold loud in H1. replace (sr - 1 =? 0) with false in H1 by lia. congruence.
Qed.
Print Assumptions C43_full.

(** Each bandwidth is reached: at 48 kHz and 10 ms, energies of 1000 up to a band, 0 after. *)
Example C43_bandwidth_ex :
  let fl := b32_ops (fun x => x) (fun x => x) in
  let run n := bwdet_run fl 3 4 (map (fun i => f_z fl (if Z.of_nat i <? n then 1000 else 0)) (seq 0 64)) in
  frame_cfg 3 4 /\ num_bands 3 4 = 64 /\
  run 40 = Some 0 /\ run 51 = Some 1 /\ run 57 = Some 2 /\ run 61 = Some 3 /\ run 64 = Some 4 /\ run 30 = Some 4 /\
  bwdet_run fl 3 4 (repeat S754_nan 64) = Some 4.
Proof. cbv zeta. split; [unfold frame_cfg; lia|]. vm_compute. repeat split. Qed.

(** ** Exact arithmetic *)
Local Open Scope R_scope.

Definition rsum (l : list R) : R := fold_right Rplus 0 l.

Lemma rsum_app l l' : rsum (l ++ l') = rsum l + rsum l'.
Proof. induction l as [|v l IH]; cbn [app rsum fold_right]; [unfold rsum; lra|]. fold (rsum (l ++ l')) (rsum l). lra. Qed.

Lemma fold_add_rsum l : forall s, fold_left (f_add Rops) l s = s + rsum l.
Proof. induction l as [|v l IH]; intros s; cbn [fold_left rsum fold_right]; [lra|]. rewrite IH. cbn [f_add Rops]. fold (rsum l). lra. Qed.

Lemma fsum_rsum l : fsum Rops l = rsum l.
Proof. destruct l as [|v l]; cbn [fsum]; [rewrite Rops_z; reflexivity|]. rewrite fold_add_rsum. reflexivity. Qed.

Lemma mean_square_R l : (l <> []) -> IZR (zlen l) * mean_square Rops l = rsum (map (fun v => v * v) l).
Proof.
  intros N. unfold mean_square. rewrite fsum_rsum, Rops_z. change (squares Rops l) with (map (fun v => v * v) l). cbn [f_div Rops].
  assert (IZR (zlen l) <> 0) by (apply not_0_IZR; unfold zlen; destruct l; [contradiction|cbn [length]; lia]). field. exact H.
Qed.

(** Sum of the energies, each with the number of coefficients of its band. *)
Fixpoint energy_sum (lim : list Z) (e : list R) : R :=
  match lim, e with
  | a :: ((b :: _) as r), v :: e' => IZR (b - a) * v + energy_sum r e'
  | _, _ => 0
  end.

Lemma energy_sum_ok x : forall lim e a n, increasing lim = true -> rd lim 0 = Some a -> rd lim (zlen e) = Some n -> (0 <= a)%Z -> (n <= zlen x)%Z ->
  zlen lim = (zlen e + 1)%Z ->
  (forall b lo hi, (0 <= b < zlen e)%Z -> rd lim b = Some lo -> rd lim (b + 1) = Some hi -> rd e b = Some (mean_square Rops (part x lo hi))) ->
  energy_sum lim e = rsum (map (fun v => v * v) (part x a n)).
Proof.
  induction lim as [|u lim IH]; intros e a n I E1 E2 Ha Hn L H; [discriminate|]. injection E1 as ->.
  destruct e as [|v e].
  - unfold zlen in E2. cbn in E2. injection E2 as ->. rewrite part_nil. destruct lim; reflexivity.
  - destruct lim as [|b lim]; [unfold zlen in L; cbn [length] in L; lia|]. cbn [increasing] in I. fold (increasing (b :: lim)) in I.
    apply andb_prop in I as [I1 I2].
    assert (Z0 : forall i, (0 <= i)%Z -> rd (a :: b :: lim) (i + 1) = rd (b :: lim) i).
    { intros i Hi. unfold rd. destruct (i + 1 <? 0)%Z eqn:A, (i <? 0)%Z eqn:B; try lia. replace (Z.to_nat (i + 1)) with (S (Z.to_nat i)) by lia. reflexivity. }
    assert (Z1 : forall i, (0 <= i)%Z -> rd (v :: e) (i + 1) = rd e i).
    { intros i Hi. unfold rd. destruct (i + 1 <? 0)%Z eqn:A, (i <? 0)%Z eqn:B; try lia. replace (Z.to_nat (i + 1)) with (S (Z.to_nat i)) by lia. reflexivity. }
    assert (Zl : zlen (v :: e) = (zlen e + 1)%Z) by (unfold zlen; cbn [length]; lia).
    assert (Zp : (0 <= zlen e)%Z) by (unfold zlen; lia).
    rewrite Zl, (Z0 _ Zp) in E2.
    pose proof (increasing_le (b :: lim) I2 (Z.to_nat (zlen e)) 0 b n eq_refl) as M. rewrite Z2Nat.id in M by lia. specialize (M E2).
    change (energy_sum (a :: b :: lim) (v :: e)) with (IZR (b - a) * v + energy_sum (b :: lim) e).
    rewrite (IH e b n I2 eq_refl E2 ltac:(lia) Hn).
    2:{ unfold zlen in *. cbn [length] in *. lia. }
    2:{ intros j lo hi Hj A1 A2. rewrite <- Z1 by lia. apply H; [lia| |]; rewrite Z0 by lia; assumption. }
    specialize (H 0%Z a b ltac:(lia) eq_refl eq_refl). assert (Ev : v = mean_square Rops (part x a b)) by (change (Some v = Some (mean_square Rops (part x a b))) in H; congruence). rewrite Ev.
    rewrite (part_app x a b n) by lia. rewrite map_app, rsum_app. f_equal.
    rewrite <- mean_square_R.
    + rewrite part_len by lia. reflexivity.
    + intros A. pose proof (part_len x a b ltac:(lia) ltac:(lia)) as B. rewrite A in B. unfold zlen in B. cbn [length] in B. lia.
Qed.

(** No coefficient is forgotten or counted twice: the energies add up to the one of the
    spectrum. The near Nyquist flag says that the last bands (2, 3, 4 or 2 of them) have more
    than 30 times the energy of the others. *)
Theorem C43_energy_sum dt sr x : frame_cfg dt sr -> (c_ne dt sr <= zlen x)%Z ->
  exists nn e, energy_compute Rops dt sr x = Some (nn, e) /\
    energy_sum (lim_of dt sr) e = rsum (map (fun v => v * v) (part x 0 (c_ne dt sr))) /\
    (nn = true <-> let h := (num_bands dt sr - znth [2; 3; 4; 2] dt 0)%Z in
       30 * rsum (part e 0 h) < rsum (part e h (num_bands dt sr))).
Proof.
  intros C L. destruct (energy_ok Rops dt sr x C L) as (nn & e & E & Le & He & Hn). exists nn, e. split; [exact E|]. split.
  - destruct (lim_ok dt sr C) as (H1 & H2 & H3 & H4 & _). pose proof (lim_checked dt sr C) as H5. unfold lim_check in H5. cbv zeta in H5.
    apply andb_prop in H5 as [_ H5].
    apply energy_sum_ok; auto; try lia.
    + rewrite Le. exact H4.
    + intros b lo hi Hb. apply He. lia.
  - rewrite Hn. unfold high_bands. cbv zeta. rewrite !fold_add_rsum, !Rops_z. cbn [f_lt f_mul Rops]. rewrite Rltb_true. lra.
Qed.
Print Assumptions C43_energy_sum.

Example C43_energy_sum_ex : frame_cfg 0 0 /\ (c_ne 0 0 <= zlen (repeat 1 20))%Z /\
  rsum (map (fun v => v * v) (part (repeat 1 20) 0 (c_ne 0 0))) = 20.
Proof. split; [unfold frame_cfg; lia|]. split; [vm_compute; discriminate|]. change (part (repeat 1 20) 0 (c_ne 0 0)) with (repeat 1 20). cbn. lra. Qed.
