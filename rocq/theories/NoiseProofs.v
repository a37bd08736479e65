(** * Noise substitution: proofs *)
From Coq Require Import ZArith List Bool Lia ZifyBool.
From Verif Require Import Base BaseProofs ConfigModel FloatModel FloatProofs SideModel FrameModel GainModel GainProofs NoiseModel NoiseSpec.
Import ListNotations.
Local Open Scope Z_scope.

(** ** Lines *)
Lemma lines_in lo hi k : In k (lines lo hi) <-> lo <= k < hi.
Proof.
  unfold lines. rewrite in_map_iff. split.
  - intros (i & <- & H). apply in_seq in H. lia.
  - intros H. exists (Z.to_nat (k - lo)). split; [lia|]. apply in_seq. lia.
Qed.
Lemma lines_empty lo hi : hi <= lo -> lines lo hi = [].
Proof. intros H. unfold lines. replace (Z.to_nat (hi - lo)) with O by lia. reflexivity. Qed.
Lemma lines_snoc lo hi : lo <= hi -> lines lo (hi + 1) = lines lo hi ++ [hi].
Proof.
  intros H. unfold lines. replace (Z.to_nat (hi + 1 - lo)) with (Z.to_nat (hi - lo) + 1)%nat by lia.
  rewrite seq_app, map_app. cbn [seq map]. do 2 f_equal. lia.
Qed.

Lemma dt_cases dt : 0 <= dt <= 3 -> dt = 0 \/ dt = 1 \/ dt = 2 \/ dt = 3.
Proof. lia. Qed.
Lemma width_eq dt : 0 <= dt <= 3 -> nf_width dt = distance dt /\ 1 <= distance dt <= 3.
Proof. intros H. destruct (dt_cases dt H) as [->|[->|[->| ->]]]; cbv; repeat split; discriminate. Qed.
Lemma first_eq dt : 0 <= dt <= 3 -> first_line dt = 6 * (1 + dt) /\ distance dt <= first_line dt.
Proof. intros H. destruct (dt_cases dt H) as [->|[->|[->| ->]]]; cbv; repeat split; discriminate. Qed.
Lemma stop_eq dt bw : 0 <= bw -> bw_stop dt bw = band_lines dt bw.
Proof.
  intros H. unfold bw_stop, band_lines, c_ne, ne_2m5. set (b := Z.min bw 4). assert (C : b = 0 \/ b = 1 \/ b = 2 \/ b = 3 \/ b = 4) by lia. clearbody b.
  rewrite Z.mul_comm. f_equal. destruct C as [->|[->|[->|[->| ->]]]]; reflexivity.
Qed.
Lemma band_range dt bw : 0 <= dt <= 3 -> 0 <= bw -> first_line dt + 2 < band_lines dt bw <= 400.
Proof.
  intros Hd H. rewrite (proj1 (first_eq dt Hd)). unfold band_lines. set (b := Z.min bw 4). assert (C : b = 0 \/ b = 1 \/ b = 2 \/ b = 3 \/ b = 4) by lia. clearbody b.
  destruct C as [->|[->|[->|[->| ->]]]]; cbv [znth Z.ltb Z.compare Z.to_nat Pos.to_nat Pos.iter_op Nat.add nth]; lia.
Qed.

(** ** Runs of null lines *)
Section Runs.
Variables (dt bw n : Z) (null : Z -> bool).
Hypothesis Hd : 0 <= dt <= 3.
Hypothesis Hb : 0 <= bw.
Let w := distance dt.
Let first := first_line dt.
Let stop := band_lines dt bw.
Let m := Z.min n stop.
Definition nul (j : Z) : bool := (Z.min n (band_lines dt bw) <=? j) || null j.

(** [z] null lines before the line [i]. *)
Definition run (i z : Z) : Prop :=
  0 <= z <= i - (first - w) /\ (forall j, i - z <= j < i -> nul j = true) /\ (z = i - (first - w) \/ nul (i - z - 1) = false).

Lemma run_start : run (first - w) 0.
Proof. unfold run. split; [lia|]. split; [intros; lia|left; lia]. Qed.
Lemma run_next i z : run i z -> first - w <= i -> run (i + 1) (if nul i then z + 1 else 0).
Proof.
  intros (R & A & B) Hi. destruct (nul i) eqn:E; unfold run.
  - split; [lia|]. split; [intros j Hj; destruct (Z.eq_dec j i) as [->|]; [exact E|apply A; lia]|].
    destruct B as [B|B]; [left; lia|right]. replace (i + 1 - (z + 1) - 1) with (i - z - 1) by lia. exact B.
  - split; [lia|]. split; [intros; lia|]. right. replace (i + 1 - 0 - 1) with i by lia. exact E.
Qed.
Lemma run_hole i z : run (i + 1) z -> i < stop + w -> first - w <= i -> (2 * w <? z) = hole dt bw n null (i - w).
Proof.
  intros (R & A & B) Hi Hi'. unfold hole. fold first stop w. replace (i - w + w + 1) with (i + 1) by lia.
  replace (i - w <? stop) with true by lia. rewrite andb_true_r.
  destruct (2 * w <? z) eqn:C; symmetry.
  - replace (first <=? i - w) with true by lia. cbn [andb]. apply forallb_forall. intros j Hj. apply lines_in in Hj. apply A. lia.
  - destruct (first <=? i - w) eqn:F; [cbn [andb]|reflexivity]. apply not_true_is_false. intros T. rewrite forallb_forall in T.
    destruct B as [B|B]; [lia|]. specialize (T (i + 1 - z - 1)). change (In (i + 1 - z - 1) (lines (i - w - w) (i + 1)) -> nul (i + 1 - z - 1) = true) in T.
    rewrite B in T. assert (false = true) by (apply T, lines_in; lia). discriminate.
Qed.
Lemma nul_over i : m <= i -> nul i = true.
Proof. intros H. unfold nul. fold stop m. replace (m <=? i) with true by lia. reflexivity. Qed.
Lemma nul_under i : i < m -> nul i = null i.
Proof. intros H. unfold nul. fold stop m. replace (m <=? i) with false by lia. reflexivity. Qed.

Lemma holes_next i : first - w <= i -> i < stop + w ->
  holes dt bw n null (i + 1 - w) = holes dt bw n null (i - w) ++ (if hole dt bw n null (i - w) then [i - w] else []).
Proof.
  intros H H'. unfold holes. fold first. destruct (Z_lt_le_dec (i - w) first) as [L|L].
  - rewrite !lines_empty by lia. unfold hole. fold first. replace (first <=? i - w) with false by lia. reflexivity.
  - replace (i + 1 - w) with (i - w + 1) by lia. rewrite lines_snoc by lia. rewrite filter_app. cbn [filter]. reflexivity.
Qed.
Lemma holes_start : holes dt bw n null (first - w - w) = [].
Proof. unfold holes. rewrite lines_empty; [reflexivity|]. pose proof (proj2 (width_eq dt Hd)). fold first. unfold w. lia. Qed.
Lemma holes_in k j : In j (holes dt bw n null k) -> j < k /\ hole dt bw n null j = true.
Proof. unfold holes. rewrite filter_In, lines_in. intros [A B]. split; [lia|exact B]. Qed.
Lemma hole_range k : hole dt bw n null k = true -> first <= k < stop.
Proof. unfold hole. fold first stop. lia. Qed.
Lemma hole_null k : hole dt bw n null k = true -> k < n -> null k = true.
Proof.
  intros H K. pose proof (hole_range k H) as R. unfold hole in H. apply andb_true_iff in H. destruct H as [_ H]. rewrite forallb_forall in H.
  specialize (H k). pose proof (proj2 (width_eq dt Hd)) as W. fold w in W. assert (I : In k (lines (k - distance dt) (k + distance dt + 1))) by (apply lines_in; fold w; lia).
  specialize (H I). fold stop m in H. replace (m <=? k) with false in H by lia. exact H.
Qed.
End Runs.

(** The holes depend on the coded lines of the bandwidth only. *)
Lemma hole_ext dt bw n null null' : 0 <= dt <= 3 -> (forall j, 0 <= j < Z.min n (band_lines dt bw) -> null j = null' j) ->
  forall k, hole dt bw n null k = hole dt bw n null' k.
Proof.
  intros Hd H k. unfold hole. destruct (first_line dt <=? k) eqn:F; [|reflexivity]. destruct (k <? band_lines dt bw); [cbn [andb]|reflexivity].
  assert (A : forall l : list Z, (forall j, In j l -> 0 <= j) -> forallb (fun j => (Z.min n (band_lines dt bw) <=? j) || null j) l = forallb (fun j => (Z.min n (band_lines dt bw) <=? j) || null' j) l).
  { induction l as [|j l IH]; intros I; cbn [forallb]; [reflexivity|]. rewrite IH by (intros; apply I; right; assumption). f_equal.
    destruct (Z.min n (band_lines dt bw) <=? j) eqn:C; [reflexivity|]. cbn [orb]. apply H. specialize (I j (or_introl eq_refl)). lia. }
  apply A. intros j Hj. apply lines_in in Hj. pose proof (proj2 (first_eq dt Hd)). lia.
Qed.

(** ** Filling *)
Lemma next_seed_ok seed : 0 <= seed < 2 ^ 16 -> next_seed seed = Some (lcg seed) /\ 0 <= lcg seed < 2 ^ 16.
Proof.
  intros H. unfold next_seed, lcg. rewrite cint_some by (unfold is_int, INT_MIN, INT_MAX; lia). cbn [bind]. rewrite cint_some by (unfold is_int, INT_MIN, INT_MAX; lia). cbn [bind].
  split; [|apply Z.mod_pos_bound; lia]. change 0xffff with (Z.ones 16). rewrite Z.land_ones by lia. reflexivity.
Qed.
Lemma sign_bit seed : 0 <= seed < 2 ^ 16 -> (Z.land seed 0x8000 =? 0) = (seed <? 2 ^ 15).
Proof.
  intros H. change 0x8000 with (2 ^ 15). pose proof (Z.testbit_spec' seed 15 ltac:(lia)) as T. 
  assert (D : seed / 2 ^ 15 = if seed <? 2 ^ 15 then 0 else 1) by (destruct (seed <? 2 ^ 15) eqn:C; Z.div_mod_to_equations; lia).
  assert (E : Z.land seed (2 ^ 15) = if Z.testbit seed 15 then 2 ^ 15 else 0).
  { apply Z.bits_inj'. intros i Hi. rewrite Z.land_spec, Z.pow2_bits_eqb by lia. destruct (15 =? i) eqn:C.
    - assert (i = 15) by lia. subst i. destruct (Z.testbit seed 15); [reflexivity|]. rewrite Z.bits_0. reflexivity.
    - rewrite andb_false_r. destruct (Z.testbit seed 15); [rewrite Z.pow2_bits_eqb by lia; lia|rewrite Z.bits_0; reflexivity]. }
  rewrite E. rewrite D in T. destruct (Z.testbit seed 15), (seed <? 2 ^ 15); cbn [Z.b2z] in T; try reflexivity; change (1 mod 2) with 1 in T; change (0 mod 2) with 0 in T; discriminate.
Qed.

Section Fill.
Variables (dt bw n s seed0 : Z) (x0 : list Z).
Hypothesis Hd : 0 <= dt <= 3.
Hypothesis Hb : 0 <= bw.
Hypothesis Hn : 0 <= n.
Hypothesis Hseed : 0 <= seed0 < 2 ^ 16.
Hypothesis Hlen : band_lines dt bw <= zlen x0.
Let w := distance dt.
Let first := first_line dt.
Let stop := band_lines dt bw.
Definition zero_at (x : list Z) (j : Z) : bool := znth x j 0 =? 0.
Let null := zero_at x0.
Definition seed_at (k : Z) : Z := Nat.iter (length (holes dt bw n (zero_at x0) k)) lcg seed0.
Definition filled (k : Z) : Z := if hole dt bw n (zero_at x0) k then noise s (seed_at (k + 1)) else znth x0 k 0.

Lemma iter_range j : 0 <= Nat.iter j lcg seed0 < 2 ^ 16.
Proof. induction j as [|j IH]; cbn [Nat.iter]; [exact Hseed|]. unfold lcg. apply Z.mod_pos_bound. lia. Qed.

(** After the lines below [i]. *)
Definition fill_inv (x : list Z) (i z seed : Z) : Prop :=
  run dt bw n null i z /\ zlen x = zlen x0 /\ seed = seed_at (i - w) /\
  forall k, 0 <= k -> znth x k 0 = if k <? i - w then filled k else znth x0 k 0.

Lemma fill_line_ok x i z seed : fill_inv x i z seed -> first - w <= i < stop + w ->
  let z' := if nul dt bw n null i then z + 1 else 0 in
  exists x' seed', fill_line w s x i z' seed = Some (x', seed') /\ fill_inv x' (i + 1) z' seed'.
Proof.
  intros (R & L & Es & V) Hi z'. pose proof (run_next dt bw n null i z R ltac:(apply Hi)) as R'. fold z' in R'. clearbody z'.
  pose proof (run_hole dt bw n null i z' R' ltac:(apply Hi) ltac:(apply Hi)) as H. fold w in H. unfold fill_line. rewrite H.
  pose proof (holes_next dt bw n null i ltac:(apply Hi) ltac:(apply Hi)) as HN. fold w in HN.
  pose proof (proj2 (width_eq dt Hd)) as W. fold w in W.
  destruct (hole dt bw n null (i - w)) eqn:Q.
  - pose proof (hole_range dt bw n null _ Q) as RQ. fold first stop in RQ. fold stop in Hlen. pose proof (proj2 (first_eq dt Hd)) as W2. fold w first in W2.
    assert (S' : seed_at (i + 1 - w) = lcg seed). { unfold seed_at. fold null. rewrite HN, app_length. cbn [length]. rewrite Nat.add_1_r. cbn [Nat.iter]. subst seed. reflexivity. }
    assert (B : 0 <= seed < 2 ^ 16) by (subst seed; apply iter_range). destruct (next_seed_ok seed B) as [E B']. rewrite E. cbn [bind].
    unfold write, inb. replace ((0 <=? i - w) && (i - w <? zlen x)) with true by lia. cbn [bind]. rewrite sign_bit by exact B'.
    eexists _, _. split; [reflexivity|]. split; [exact R'|]. split; [rewrite zlen_upd; exact L|]. split; [symmetry; exact S'|].
    intros k Hk. destruct (Z.eq_dec k (i - w)) as [->|N].
    + rewrite znth_upd_same by lia. replace (i - w <? i + 1 - w) with true by lia. unfold filled. fold null. rewrite Q. replace (i - w + 1) with (i + 1 - w) by lia. rewrite S'. reflexivity.
    + rewrite znth_upd_other by lia. rewrite V by exact Hk. replace (k <? i + 1 - w) with (k <? i - w) by lia. reflexivity.
  - eexists _, _. split; [reflexivity|]. split; [exact R'|]. split; [exact L|]. split.
    + rewrite Es. unfold seed_at. fold null. rewrite HN, app_nil_r. reflexivity.
    + intros k Hk. rewrite V by exact Hk. destruct (Z.eq_dec k (i - w)) as [->|N].
      * replace (i - w <? i - w) with false by lia. replace (i - w <? i + 1 - w) with true by lia. unfold filled. fold null. rewrite Q. reflexivity.
      * replace (k <? i + 1 - w) with (k <? i - w) by lia. reflexivity.
Qed.

Lemma fill_first_ok k : forall x i z seed, fill_inv x i z seed -> first - w <= i -> i + Z.of_nat k <= Z.min n stop ->
  exists x' z' seed', fill_first k w s x i z seed = Some (x', i + Z.of_nat k, z', seed') /\ fill_inv x' (i + Z.of_nat k) z' seed'.
Proof.
  pose proof (proj2 (width_eq dt Hd)) as W. fold w in W. pose proof (proj2 (first_eq dt Hd)) as W2. fold w first in W2. pose proof Hlen as HL. fold stop in HL.
  induction k as [|k IH]; intros x i z seed Inv Hi Hk.
  - cbn [fill_first]. replace (i + Z.of_nat 0) with i by lia. eauto 6.
  - cbn [fill_first]. pose proof Inv as (_ & L & _ & V). unfold read, inb. replace ((0 <=? i) && (i <? zlen x)) with true by lia. cbn [bind].
    rewrite V by lia. replace (i <? i - w) with false by lia.
    destruct (fill_line_ok x i z seed Inv ltac:(lia)) as (x' & seed' & E & Inv'). rewrite nul_under in E, Inv' by (fold stop; lia).
    change (znth x0 i 0 =? 0) with (null i). rewrite E. cbn [bind fst snd].
    destruct (IH x' (i + 1) _ seed' Inv' ltac:(lia) ltac:(lia)) as (x2 & z2 & s2 & E2 & I2).
    exists x2, z2, s2. replace (i + Z.of_nat (S k)) with (i + 1 + Z.of_nat k) by lia. split; assumption.
Qed.
Lemma fill_second_ok k : forall x i z seed, fill_inv x i z seed -> first - w <= i -> Z.min n stop <= i -> i + Z.of_nat k = Z.max i (stop + w) ->
  exists x', fill_second k w s x i z seed = Some x' /\ zlen x' = zlen x0 /\ forall k, 0 <= k -> znth x' k 0 = filled k.
Proof.
  induction k as [|k IH]; intros x i z seed Inv Hi Hm Hk.
  - cbn [fill_second]. destruct Inv as (_ & L & _ & V). exists x. split; [reflexivity|]. split; [exact L|]. intros k H. rewrite V by exact H.
    destruct (k <? i - w) eqn:C; [reflexivity|]. unfold filled. fold null. destruct (hole dt bw n null k) eqn:Q; [|reflexivity]. apply hole_range in Q. fold stop in Q. lia.
  - cbn [fill_second]. destruct (fill_line_ok x i z seed Inv ltac:(lia)) as (x' & seed' & E & Inv'). rewrite nul_over in E, Inv' by exact Hm. rewrite E. cbn [bind fst snd].
    apply (IH x' (i + 1) _ seed' Inv'); lia.
Qed.
End Fill.

Lemma fill_noise_ok dt bw nf seed g x nq : 0 <= dt <= 3 -> 0 <= bw -> 0 <= nq -> 0 <= seed < 2 ^ 16 -> band_lines dt bw <= zlen x ->
  exists x', fill_noise dt bw nf seed g x nq = Some x' /\ zlen x' = zlen x /\
    forall k, 0 <= k -> znth x' k 0 = filled dt bw nq (fmul g ((8 - nf) * one) / 16) seed x k.
Proof.
  intros Hd Hb Hn Hs Hl. unfold fill_noise. pose proof (width_eq dt Hd) as [W1 W2]. pose proof (first_eq dt Hd) as [F1 F2]. unfold nf_start. rewrite W1, stop_eq, <- F1 by exact Hb.
  set (s := fmul _ _ / 16). clearbody s.
  assert (I0 : fill_inv dt bw nq s seed x x (first_line dt - distance dt) 0 seed).
  { split; [apply run_start|]. split; [reflexivity|]. split; [unfold seed_at; rewrite holes_start by exact Hd; reflexivity|].
    intros k Hk. destruct (k <? first_line dt - distance dt - distance dt) eqn:C; [|reflexivity].
    unfold filled. destruct (hole dt bw nq (zero_at x) k) eqn:Q; [|reflexivity]. apply hole_range in Q. lia. }
  assert (H : exists x' i z' seed', fill_first (Z.to_nat (Z.min nq (band_lines dt bw) - (first_line dt - distance dt))) (distance dt) s x (first_line dt - distance dt) 0 seed = Some (x', i, z', seed') /\
     fill_inv dt bw nq s seed x x' i z' seed' /\ i = Z.max (first_line dt - distance dt) (Z.min nq (band_lines dt bw))).
  { destruct (Z_le_gt_dec (first_line dt - distance dt) (Z.min nq (band_lines dt bw))) as [L|G].
    - destruct (fill_first_ok dt bw nq s seed x Hd Hs Hl (Z.to_nat (Z.min nq (band_lines dt bw) - (first_line dt - distance dt))) x (first_line dt - distance dt) 0 seed I0 ltac:(lia) ltac:(lia)) as (x' & z' & s' & E & I).
      exists x', (first_line dt - distance dt + Z.of_nat (Z.to_nat (Z.min nq (band_lines dt bw) - (first_line dt - distance dt)))), z', s'. split; [exact E|]. split; [exact I|lia].
    - replace (Z.to_nat (Z.min nq (band_lines dt bw) - (first_line dt - distance dt))) with O by lia. cbn [fill_first]. exists x, (first_line dt - distance dt), 0, seed. split; [reflexivity|]. split; [exact I0|lia]. }
  destruct H as (x1 & i & z1 & s1 & E & I1 & Ei). rewrite E. cbn [bind].
  pose proof (band_range dt bw Hd Hb).
  apply (fill_second_ok dt bw nq s seed x Hd Hs Hl (Z.to_nat (band_lines dt bw + distance dt - i)) x1 i z1 s1 I1); lia.
Qed.
