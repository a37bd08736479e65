(** * The attack detector is exact *)
From Coq Require Import ZArith List Bool Lia.
From Verif Require Import Base BaseProofs ConfigModel ConfigSpec ConfigProofs LtpfModel LtpfProofs FrontModel FrontSpec FrontHp50 FrontProofs.
Import ListNotations.
Local Open Scope Z_scope.

Lemma znth_s16 x i : Forall s16 x -> s16 (znth x i 0).
Proof. intros H. apply (znth_Forall s16); [exact H|]. unfold s16. lia. Qed.

Section block.
  Context (hz : Z) (x : list Z) (X : stream) (o : Z).
  Let d := group hz.
  Context (Hs : Forall s16 x) (HX : forall i, 0 <= i < zlen x -> znth x i 0 = X (o + i)).
  Notation m := (decimated hz X).

  Lemma group_2_3 : d = 2 /\ hz = 32000 \/ d = 3 /\ hz <> 32000.
  Proof. unfold d, group. destruct (Z.eqb_spec hz 32000); auto. Qed.

  Lemma mean_ok p k : 0 <= p -> p + d <= zlen x -> o + p = d * k -> mean x d p = ret (m k) /\ s16 (m k).
  Proof.
    intros H1 H2 E.
    assert (Em : m k = sum (Z.to_nat d) X (o + p) / (if hz =? 32000 then 2 else 4)) by (unfold decimated; fold d; rewrite E; reflexivity).
    unfold mean. destruct group_2_3 as [[Ed Eh]|[Ed Eh]]; rewrite Ed in *.
    - rewrite (rdm_znth x p), bind_ret, (rdm_znth x (p + 1)), bind_ret by lia. cbn [Z.eqb Pos.eqb].
      pose proof (znth_s16 x p Hs) as S0. pose proof (znth_s16 x (p + 1) Hs) as S1.
      assert (Em' : m k = shr (znth x p 0 + znth x (p + 1) 0) 1).
      { rewrite Em, !HX by lia. change (Z.to_nat 2) with 2%nat. cbn [sum]. destruct (Z.eqb_spec hz 32000); [|contradiction].
        unfold shr. change (2 ^ 1) with 2. f_equal. replace (o + p + 1) with (o + (p + 1)) by lia. lia. }
      assert (S : s16 (m k)) by (rewrite Em'; revert S0 S1; unfold s16, shr; clear; intros; Z.div_mod_to_equations; lia).
      split; [|exact S]. rewrite m32_in by (revert S0 S1; unfold s16; clear; lia). rewrite bind_ret, <- Em'.
      apply m16_in. exact S.
    - rewrite (rdm_znth x p), bind_ret, (rdm_znth x (p + 1)), bind_ret by lia. cbn [Z.eqb Pos.eqb].
      rewrite (rdm_znth x (p + 2)), bind_ret by lia.
      pose proof (znth_s16 x p Hs) as S0. pose proof (znth_s16 x (p + 1) Hs) as S1. pose proof (znth_s16 x (p + 2) Hs) as S2.
      assert (Em' : m k = shr (znth x p 0 + znth x (p + 1) 0 + znth x (p + 2) 0) 2).
      { rewrite Em, !HX by lia. change (Z.to_nat 3) with 3%nat. cbn [sum]. destruct (Z.eqb_spec hz 32000); [contradiction|].
        unfold shr. change (2 ^ 2) with 4. f_equal. replace (o + p + 1) with (o + (p + 1)) by lia. replace (o + (p + 1) + 1) with (o + (p + 2)) by lia. lia. }
      assert (S : s16 (m k)) by (rewrite Em'; revert S0 S1 S2; unfold s16, shr; clear; intros; Z.div_mod_to_equations; lia).
      split; [|exact S]. rewrite m32_in by (revert S0 S1; unfold s16; clear; lia). rewrite bind_ret.
      rewrite m32_in by (revert S0 S1 S2; unfold s16; clear; lia). rewrite bind_ret, <- Em'.
      apply m16_in. exact S.
  Qed.

  Notation term := (fun k => highpass m k * highpass m k / 32).

  Lemma sum_bound f n : (forall k, 0 <= f k <= 2 ^ 25) -> forall k, 0 <= sum n f k <= Z.of_nat n * 2 ^ 25.
  Proof. intros H. induction n as [|n IH]; intros k; cbn [sum]; [lia|]. specialize (H k). specialize (IH (k + 1)). lia. Qed.

  Lemma highpass_bound k : s16 (m k) -> s16 (m (k - 1)) -> s16 (m (k - 2)) -> s16 (highpass m k).
  Proof. unfold s16, highpass. intros. Z.div_mod_to_equations. lia. Qed.

  Lemma term_bound v : s16 v -> 0 <= v * v <= 2 ^ 30 /\ 0 <= v * v / 32 <= 2 ^ 25.
  Proof.
    unfold s16. intros H. assert (A : 0 <= v * v <= 2 ^ 30) by nia. split; [exact A|]. revert A. generalize (v * v). intros. Z.div_mod_to_equations. lia.
  Qed.

  Lemma att_energy_ok n : forall p k e, 0 <= p -> p + d * Z.of_nat n <= zlen x -> o + p = d * k ->
    s16 (m (k - 1)) -> s16 (m (k - 2)) -> 0 <= e -> e + Z.of_nat n * 2 ^ 25 < 2 ^ 31 ->
    att_energy n x d p (m (k - 2)) (m (k - 1)) e = ret (e + sum n term k, p + d * Z.of_nat n) /\
    0 <= sum n term k <= Z.of_nat n * 2 ^ 25.
  Proof.
    induction n as [|n IH]; intros p k e H1 H2 E S1 S2 He1 He2; cbn [att_energy sum].
    { change (Z.of_nat 0) with 0. rewrite Z.mul_0_r, !Z.add_0_r. split; [reflexivity|lia]. }
    assert (Hd : 0 < d) by (destruct group_2_3; lia).
    assert (Hdn : 0 <= d * Z.of_nat n) by (apply Z.mul_nonneg_nonneg; lia).
    assert (Hd2 : d * Z.of_nat (S n) = d + d * Z.of_nat n) by lia. rewrite Hd2 in *.
    destruct (mean_ok p k H1 ltac:(lia) E) as [-> S0]. rewrite bind_ret.
    rewrite m32_in by (revert S0 S1; unfold s16; clear; lia). rewrite bind_ret.
    rewrite m32_in by (revert S0 S1 S2; unfold s16; clear; lia). rewrite bind_ret.
    replace (shr (3 * m k - 4 * m (k - 1) + 1 * m (k - 2)) 3) with (highpass m k) by (unfold highpass, shr; change (2 ^ 3) with 8; f_equal; lia).
    pose proof (highpass_bound k S0 S1 S2) as Sh. rewrite m16_in by exact Sh. rewrite bind_ret.
    destruct (term_bound _ Sh) as [T1 T2].
    rewrite m32_in by (clear - T1; lia). rewrite bind_ret.
    unfold shr. change (2 ^ 5) with 32. rewrite m32_in by (clear - T2 He1 He2; lia). rewrite bind_ret.
    specialize (IH (p + d) (k + 1) (e + highpass m k * highpass m k / 32)).
    replace (k + 1 - 1) with k in IH by lia. replace (k + 1 - 2) with (k - 1) in IH by lia.
    destruct IH as [IH1 IH2]; try assumption; try (clear - H1 H2 E Hd Hdn T2 He1 He2; lia).
    rewrite IH1, Z.add_assoc, Z.add_assoc. split; [reflexivity|clear - IH2 T2; lia].
  Qed.

  Lemma att_blocks_ok nb : forall p b, 2 * d <= p -> p + 40 * d * Z.of_nat nb <= zlen x -> o + p = d * (40 * b) ->
    att_blocks nb x d p = ret (map (fun i => energy hz X (b + Z.of_nat i)) (seq 0 nb)) /\
    Forall (fun e => 0 <= e <= 40 * 2 ^ 25) (map (fun i => energy hz X (b + Z.of_nat i)) (seq 0 nb)).
  Proof.
    induction nb as [|nb IH]; intros p b H1 H2 E; cbn [att_blocks seq map]; [split; [reflexivity|constructor]|].
    assert (Hd : 0 < d) by (destruct group_2_3; lia).
    assert (Hdn : 0 <= 40 * d * Z.of_nat nb) by (apply Z.mul_nonneg_nonneg; lia).
    assert (Hd2 : 40 * d * Z.of_nat (S nb) = 40 * d + 40 * d * Z.of_nat nb) by lia. rewrite Hd2 in *.
    destruct (mean_ok (p - 2 * d) (40 * b - 2)) as [E2 S2]; [lia..|]. rewrite E2, bind_ret.
    destruct (mean_ok (p - d) (40 * b - 1)) as [E1 S1]; [lia..|]. rewrite E1, bind_ret.
    destruct (att_energy_ok 40 p (40 * b) 0) as [E3 S3]; try assumption; try (clear - H1 H2 Hd Hdn; lia).
    rewrite E3, bind_ret. cbn [fst snd].
    specialize (IH (p + d * Z.of_nat 40) (b + 1)). destruct IH as [IH1 IH2]; [clear - H1 H2 E Hd Hdn; lia..|].
    rewrite IH1, bind_ret.
    assert (Em : map (fun i => energy hz X (b + 1 + Z.of_nat i)) (seq 0 nb) = map (fun i => energy hz X (b + Z.of_nat i)) (seq 1 nb)).
    { rewrite <- seq_shift, map_map. apply map_ext. intros i. f_equal. lia. }
    rewrite Em in *. change (Z.of_nat 0) with 0. rewrite Z.add_0_r, Z.add_0_l. split; [reflexivity|].
    constructor; [|exact IH2]. unfold energy. change (Z.of_nat 40) with 40 in S3. exact S3.
  Qed.
End block.

Definition en_ok (v : Z) : Prop := 0 <= v <= 40 * 2 ^ 25.

Lemma att_detect_ok : forall es i a e p, Forall en_ok es -> en_ok a -> en_ok e -> p <= i ->
  exists p', att_detect es i e a p = ret (snd (last_block a e es), fst (last_block a e es), p') /\
    en_ok (fst (last_block a e es)) /\ en_ok (snd (last_block a e es)) /\ p' <= i + zlen es /\
    forall c, (c <? p') = any (skipn (Z.to_nat (c - i)) (attacks a e es)) || (c <? p).
Proof.
  induction es as [|e' es IH]; intros i a e p Hes Ha He Hp; cbn [att_detect last_block attacks].
  { exists p. cbn [fst snd]. rewrite zlen_nil. repeat split; try apply Ha; try apply He; try lia. intros c. rewrite skipn_nil. reflexivity. }
  replace (Z.max (shr a 2) e) with (envelope a e) by reflexivity.
  assert (Hv : en_ok (envelope a e)) by (revert Ha He; unfold en_ok, envelope; clear; intros; Z.div_mod_to_equations; lia).
  rewrite m32_in by (revert Hv; unfold en_ok, shr; clear; intros; Z.div_mod_to_equations; lia). rewrite bind_ret.
  replace (envelope a e + shr (envelope a e) 4 <? shr e' 3) with (attack (envelope a e) e') by reflexivity.
  pose proof (Forall_inv Hes) as He'. pose proof (Forall_inv_tail Hes) as Hes'.
  destruct (IH (i + 1) (envelope a e) e' (if attack (envelope a e) e' then i + 1 else p) Hes' Hv He') as (p' & E & R1 & R2 & R3 & R4).
  { destruct (attack (envelope a e) e'); lia. }
  exists p'. split; [exact E|]. split; [exact R1|]. split; [exact R2|]. rewrite zlen_cons. split; [lia|].
  intros c. rewrite R4. clear R4 E.
  destruct (Z.lt_ge_cases i c).
  - replace (Z.to_nat (c - i)) with (S (Z.to_nat (c - (i + 1)))) by lia. cbn [skipn]. f_equal.
    destruct (attack _ _); lia.
  - replace (Z.to_nat (c - i)) with O by lia. replace (Z.to_nat (c - (i + 1))) with O by lia. cbn [skipn any existsb].
    unfold any. destruct (attack (envelope a e) e'); cbn [orb]; [|reflexivity].
    replace (c <? i + 1) with true by lia. apply orb_true_r.
Qed.

Lemma attacks_length : forall es a e, zlen (attacks a e es) = zlen es.
Proof. induction es as [|e' es IH]; intros a e; cbn [attacks]; [reflexivity|]. rewrite !zlen_cons, IH. reflexivity. Qed.

(** State of the detector: the last block, and where the attacks of the last frame were. *)
Record att_ok (nb : Z) (st : attdet_state) (a e : Z) (prev : list bool) : Prop := {
  to_an1 : at_an1 st = a; to_en1 : at_en1 st = e; to_a : en_ok a; to_e : en_ok e;
  to_p : (1 + nb / 2 <=? at_patt st) = any (skipn (Z.to_nat (nb / 2)) prev) }.

Lemma works_ok hr dt_us hz nbytes : supported hr dt_us hz ->
  attdet_enabled (resolve_dt dt_us hr) (resolve_srate hz hr) nbytes = works hr dt_us hz nbytes.
Proof.
  intros H. assert (E : forall lo hi, negb ((nbytes <? lo) || (hi <? nbytes)) = (lo <=? nbytes) && (nbytes <=? hi)).
  { intros lo hi. destruct (Z.ltb_spec nbytes lo), (Z.ltb_spec hi nbytes), (Z.leb_spec lo nbytes), (Z.leb_spec nbytes hi); cbn; lia. }
  supported_case H; first [reflexivity|apply E].
Qed.

Lemma works_geometry hr dt_us hz nbytes : supported hr dt_us hz -> works hr dt_us hz nbytes = true ->
  let dt := resolve_dt dt_us hr in let sr := resolve_srate hz hr in
  (if sr =? SRATE_32K then 2 else 3) = group hz /\ 4 - b2z (dt =? DT_7M5) = dt_us / 2500 /\
  c_ns dt sr = 40 * group hz * (dt_us / 2500) /\ 2 * group hz <= c_nt sr /\ (group hz | c_nt sr) /\ 1 <= dt_us / 2500.
Proof.
  intros H W. unfold works in W. destruct (sizes hr dt_us hz) eqn:E; [|discriminate]. clear W. revert E.
  supported_case H; intros E; try discriminate E; vm_compute; repeat split; try discriminate.
  1, 3: exists 20; reflexivity. all: exists 20; reflexivity.
Qed.

Lemma attdet_run_ok hr dt_us hz nbytes st xt X n a e prev : supported hr dt_us hz ->
  let dt := resolve_dt dt_us hr in let sr := resolve_srate hz hr in
  let nb := dt_us / 2500 in
  Forall s16 xt -> zlen xt = c_nt sr + c_ns dt sr ->
  (forall i, 0 <= i < zlen xt -> znth xt i 0 = X (c_ns dt sr * n - c_nt sr + i)) ->
  att_ok nb st a e prev ->
  if works hr dt_us hz nbytes then
    let es := map (fun i => energy hz X (nb * n + Z.of_nat i)) (seq 0 (Z.to_nat nb)) in
    exists st', attdet_run dt sr nbytes st xt (c_nt sr) =
      ret (any (attacks a e es) || any (skipn (Z.to_nat (nb / 2)) prev), st') /\
      att_ok nb st' (fst (last_block a e es)) (snd (last_block a e es)) (attacks a e es)
  else attdet_run dt sr nbytes st xt (c_nt sr) = ret (false, st).
Proof.
  intros Hsup dt sr nb Hs Hl HX [T1 T2 T3 T4 T5]. unfold attdet_run. unfold dt, sr. rewrite works_ok by exact Hsup.
  destruct (works hr dt_us hz nbytes) eqn:W; cbn [negb]; [|reflexivity].
  pose proof (works_geometry hr dt_us hz nbytes Hsup W) as G. cbv zeta in G. fold dt sr in G |- *. fold nb in G.
  destruct G as (G1 & G2 & G3 & G4 & G5 & G6). cbv zeta. rewrite G1, G2.
  destruct (att_blocks_ok hz xt X (c_ns dt sr * n - c_nt sr) Hs HX (Z.to_nat nb) (c_nt sr) (nb * n)) as [E Hes].
  - exact G4.
  - rewrite Hl, G3. rewrite Z2Nat.id by lia. lia.
  - rewrite G3. ring_simplify. ring.
  - rewrite E, bind_ret. set (es := map _ _) in *. clearbody es.
    destruct (att_detect_ok es 0 a e 0 Hes T3 T4 ltac:(lia)) as (p' & Ed & R1 & R2 & R3 & R4).
    rewrite T1, T2, Ed, bind_ret. eexists. split.
    + f_equal. f_equal. unfold shr. change (2 ^ 1) with 2. rewrite T5, (R4 0). cbn [Z.to_nat Z.sub skipn].
      rewrite orb_false_r, orb_comm. reflexivity.
    + constructor; cbn [at_an1 at_en1 at_patt]; try reflexivity; try assumption.
      replace (1 + nb / 2 <=? p') with (nb / 2 <? p') by lia. rewrite R4, Z.sub_0_r.
      replace (nb / 2 <? 0) with false by (symmetry; apply Z.ltb_ge, Z.div_pos; lia). apply orb_false_r.
Qed.
