(** * The reader recovers what is in a frame of an abstract state *)
From Coq Require Import ZArith List Bool Lia ZifyBool.
From Verif Require Import Base BaseProofs BitsModel BitsWriteSafe BitsAbstract.
Import ListNotations.
Local Open Scope Z_scope.

Ltac rproj :=
  unfold r_set_fw, r_set_bw, r_set_accu, r_set_ac, r_flag_ub, r_flag_oob, r_flag_stuck in *;
  cbn [r_buf r_fw r_bw r_v r_n r_nover r_low r_range r_error r_hw
       r_oob r_ub r_stuck] in *.

(** ** Plain bits *)

Definition r_same_ac (r r' : rst) : Prop :=
  r_fw r' = r_fw r /\ r_low r' = r_low r /\ r_range r' = r_range r /\
  r_error r' = r_error r /\ r_hw r' = r_hw r.

(** Position of bit 0 of the accumulator in the frame. *)
Definition r_base (L : Z) (r : rst) : Z := 8 * (L - r_bw r) + r_nover r - 32.

Record RA (F L : Z) (r : rst) : Prop := mkRA {
  ra_bytes : bytes (r_buf r);
  ra_len : zlen (r_buf r) = L;
  ra_val : bval (r_buf r) = F;
  ra_bw : 0 <= r_bw r <= L;
  ra_n : 0 <= r_n r <= 32;
  ra_nover : 0 <= r_nover r <= 32;
  ra_end : 0 < r_nover r -> r_bw r = 0;
  ra_base : 0 <= r_base L r;
  ra_v : r_v r = F / 2 ^ r_base L r mod 2 ^ 32;
  ra_oob : r_oob r = false;
  ra_ub : r_ub r = false;
  ra_stuck : r_stuck r = false }.

Definition r_pos (L : Z) (r : rst) : Z := r_base L r + r_n r.

(** A byte as a slice of the frame value. *)
Lemma byte_slice F L buf i :
  bytes buf -> zlen buf = L -> bval buf = F -> 0 <= i < L ->
  znth buf i 0 = F / 2 ^ (8 * (L - 1 - i)) mod 256.
Proof.
  intros Hb HL HF Hi. rewrite bval_digit by (auto; lia).
  rewrite HL, HF, pow256 by lia. reflexivity.
Qed.

Lemma accu_load_loop_RA F L n : forall r,
  RA F L r -> Z.of_nat n <= r_bw r -> r_nover r = 0 ->
  let r' := accu_load_loop n r in
  RA F L r' /\ r_same_ac r r' /\ r_n r' = r_n r /\ r_nover r' = 0 /\
  r_bw r' = r_bw r - Z.of_nat n.
Proof.
  induction n as [|n IH]; intros r H Hn Hno.
  - cbn [accu_load_loop]. cbv zeta. split; [exact H|]. split; [repeat split|].
    split; [reflexivity|]. split; [exact Hno|]. lia.
  - rewrite Nat2Z.inj_succ in Hn. cbn [accu_load_loop]. unfold r_load.
    set (r1 := r_set_accu _ _ _ _).
    pose proof (ra_base _ _ _ H) as Hb0. pose proof (ra_bw _ _ _ H) as Hbw.
    assert (Ebase : r_base L r = 8 * (L - r_bw r) - 32) by (unfold r_base; lia).
    assert (H1 : RA F L r1 /\ r_same_ac r r1 /\ r_n r1 = r_n r /\ r_nover r1 = 0 /\
                 r_bw r1 = r_bw r - 1).
    { assert (Ev : r_v r1 = F / 2 ^ (r_base L r + 8) mod 2 ^ 32).
      { unfold r1. rproj. unfold shl, shr.
        rewrite (byte_slice F L) by (try apply H; lia).
        rewrite (ra_v _ _ _ H).
        replace (8 * (L - 1 - (r_bw r - 1))) with (r_base L r + 32) by lia.
        rewrite div_mod_pow by lia. change (32 - 8) with 24.
        rewrite div_div_pow by lia.
        pose proof (Z.mod_pos_bound (F / 2 ^ (r_base L r + 32)) 256 ltac:(lia)) as Hm.
        rewrite u32_small by lia.
        rewrite lor_add by (try lia; apply Z.mod_pos_bound; lia).
        replace (r_base L r + 32) with ((r_base L r + 8) + 24) by lia.
        rewrite <- (div_div_pow F (r_base L r + 8) 24) by lia.
        set (X := F / 2 ^ (r_base L r + 8)).
        change (2 ^ 32) with (2 ^ 24 * 256).
        rewrite (Z.rem_mul_r X (2 ^ 24) 256) by lia. lia. }
      assert (Eb1 : r_base L r1 = r_base L r + 8).
      { unfold r_base, r1. rproj. lia. }
      split; [|unfold r1; rproj; repeat split; auto].
      constructor; try (rewrite ?Ev, ?Eb1; auto; lia);
        try (unfold r1; rproj; destruct H; auto; lia).
      unfold r1. rproj. rewrite (ra_oob _ _ _ H), (ra_len _ _ _ H). unfold inb. lia. }
    clearbody r1. destruct H1 as (H1 & C1 & N1 & V1 & B1).
    destruct (IH r1 H1 ltac:(lia) V1) as (H2 & C2 & N2 & V2 & B2).
    cbv zeta. split; [exact H2|]. split; [unfold r_same_ac in *; intuition congruence|].
    split; [congruence|]. split; [exact V2|]. lia.
Qed.

Lemma accu_load_RA F L r :
  0 <= F < 2 ^ (8 * L) -> RA F L r -> r_pos L r < 8 * L ->
  let r' := accu_load r in
  RA F L r' /\ r_same_ac r r' /\ r_pos L r' = r_pos L r /\ r_n r' < 8.
Proof.
  intros HF H Hpos. pose proof (ra_n _ _ _ H) as Hn. pose proof (ra_bw _ _ _ H) as Hbw.
  pose proof (ra_nover _ _ _ H) as Hnov. pose proof (ra_end _ _ _ H) as Hend.
  assert (Hq : 0 <= r_n r / 8) by (apply Z.div_pos; lia).
  pose proof (Z.div_mod (r_n r) 8 ltac:(lia)) as Hd.
  pose proof (Z.mod_pos_bound (r_n r) 8 ltac:(lia)) as Hm.
  unfold accu_load, shr. change (2 ^ 3) with 8. cbv zeta.
  set (nb := Z.min (r_n r / 8) (r_bw r)).
  set (r1 := r_set_accu r (r_v r) (r_n r - 8 * nb) (r_nover r)).
  assert (H1 : RA F L r1).
  { destruct H. unfold r1. constructor; rproj; auto; try lia. }
  assert (Hl : let r' := accu_load_loop (Z.to_nat nb) r1 in
     RA F L r' /\ r_same_ac r1 r' /\ r_n r' = r_n r1 /\ r_nover r' = r_nover r1 /\
     r_bw r' = r_bw r1 - nb).
  { destruct (Z.eq_dec nb 0) as [E0|E0].
    - rewrite E0. cbn [Z.to_nat accu_load_loop]. cbv zeta.
      split; [exact H1|]. split; [repeat split|]. repeat split; lia.
    - assert (Hz : r_nover r1 = 0).
      { unfold r1. rproj. destruct (Z.eq_dec (r_nover r) 0) as [Hx|Hx]; [exact Hx|].
        exfalso. specialize (Hend ltac:(lia)). lia. }
      destruct (accu_load_loop_RA F L (Z.to_nat nb) r1 H1) as (H2 & C2 & N2 & V2 & B2).
      { unfold r1. rproj. lia. } { exact Hz. }
      cbv zeta. split; [exact H2|]. split; [exact C2|]. split; [exact N2|].
      split; [congruence|]. rewrite Z2Nat.id in B2 by lia. exact B2. }
  cbv zeta in Hl. set (r2 := accu_load_loop (Z.to_nat nb) r1) in *. clearbody r2.
  destruct Hl as (H2 & C2 & N2 & V2 & B2).
  assert (C1 : r_same_ac r r1) by (repeat split).
  assert (N1 : r_n r1 = r_n r - 8 * nb) by reflexivity.
  assert (V1 : r_nover r1 = r_nover r) by reflexivity.
  assert (B1 : r_bw r1 = r_bw r) by reflexivity.
  clearbody r1.
  assert (Epos : r_pos L r2 = r_pos L r) by (unfold r_pos, r_base; lia).
  destruct (8 <=? r_n r2) eqn:E8.
  - assert (Hbw0 : r_bw r2 = 0) by lia.
    unfold r_pos, r_base in Hpos, Epos.
    replace (r_n r2 <? 32) with true by lia.
    set (r3 := r_set_accu r2 _ 0 _).
    assert (Hnv3 : r_nover r3 = r_nover r2 + r_n r2) by (unfold r3; rproj; lia).
    assert (Eb3 : r_base L r3 = r_base L r2 + r_n r2).
    { unfold r_base. rewrite Hnv3. unfold r3. rproj. lia. }
    split; [|split; [|split]].
    + pose proof (ra_base _ _ _ H2) as Hb2. pose proof (ra_v _ _ _ H2) as Hv2.
      assert (Ev : r_v r3 = F / 2 ^ (r_base L r2 + r_n r2) mod 2 ^ 32).
      { unfold r3. rproj. unfold shr. rewrite Hv2.
        assert (Hsm : 0 <= F / 2 ^ r_base L r2 < 2 ^ 32).
        { pose proof (pow2_pos (r_base L r2) Hb2) as Hp.
          split; [apply Z.div_pos; lia|]. apply Z.div_lt_upper_bound; [exact Hp|].
          rewrite <- Z.pow_add_r by lia.
          assert (2 ^ (8 * L) <= 2 ^ (r_base L r2 + 32)); [|lia].
          apply Z.pow_le_mono_r; [lia|]. unfold r_base. pose proof (ra_nover _ _ _ H2). lia. }
        rewrite Z.mod_small by exact Hsm.
        rewrite div_div_pow by lia.
        rewrite Z.mod_small; [reflexivity|].
        pose proof (pow2_pos (r_base L r2 + r_n r2) ltac:(lia)) as Hp2.
        split; [apply Z.div_pos; lia|].
        rewrite <- div_div_pow by lia. pose proof (pow2_pos (r_n r2) ltac:(lia)).
        apply Z.le_lt_trans with (F / 2 ^ r_base L r2); [|lia].
        apply Z.div_le_upper_bound; nia. }
      constructor; try (rewrite ?Ev, ?Eb3; auto; lia);
        try (unfold r3; rproj; destruct H2; auto; lia).
    + unfold r3. unfold r_same_ac in *. rproj. intuition congruence.
    + unfold r_pos. rewrite Eb3. unfold r3. rproj. unfold r_base. lia.
    + unfold r3. rproj. lia.
  - split; [exact H2|]. split; [unfold r_same_ac in *; intuition congruence|].
    split; [exact Epos|]. lia.
Qed.

(** Extraction of a slice of the accumulator. *)
Lemma accu_slice F L r n :
  RA F L r -> 1 <= n -> r_n r + n <= 32 ->
  Z.land (shr (r_v r) (r_n r)) (2 ^ n - 1) = F / 2 ^ r_pos L r mod 2 ^ n.
Proof.
  intros H Hn Hs. pose proof (ra_n _ _ _ H). pose proof (ra_base _ _ _ H).
  rewrite land_mask by lia. unfold shr. rewrite (ra_v _ _ _ H).
  rewrite div_mod_pow by lia. rewrite div_div_pow by lia.
  rewrite mod_mod_pow by lia. reflexivity.
Qed.

(** src/bits.c lines 345-360: extraction of [n] bits of the accumulator. *)
Definition accu_take (r : rst) (n : Z) : Z * rst :=
  let v := Z.land (shr (r_v r) (r_n r)) (2 ^ n - 1) in
  let r := r_flag_ub r (negb (inb (r_n r) 32 && inb n 32)) in
  (v, r_set_accu r (r_v r) (r_n r + n) (r_nover r)).

Lemma get_bits_take r n :
  get_bits r n =
  if r_n r + n <=? 32 then accu_take r n
  else
    let r := accu_load r in
    let n1 := Z.min (32 - r_n r) n in
    let '(v, r) := accu_take r n1 in
    let n2 := n - n1 in
    if n2 =? 0 then (v, r)
    else
      let '(v2, r) := accu_take (accu_load r) n2 in
      (Z.lor v (u32 (shl v2 n1)), r).
Proof. reflexivity. Qed.

Lemma accu_take_RA F L r n :
  RA F L r -> 1 <= n -> r_n r + n <= 32 -> r_n r < 32 -> n < 32 ->
  let '(v, r') := accu_take r n in
  v = F / 2 ^ r_pos L r mod 2 ^ n /\
  RA F L r' /\ r_same_ac r r' /\ r_pos L r' = r_pos L r + n.
Proof.
  intros H Hn Hs Hlt Hlt2. pose proof (ra_n _ _ _ H) as Hrn. unfold accu_take.
  assert (E : inb (r_n r) 32 && inb n 32 = true) by (unfold inb; lia).
  rewrite E. split; [apply accu_slice; auto; lia|].
  split; [|split; [repeat split|unfold r_pos, r_base; rproj; lia]].
  destruct H. constructor; unfold r_base in *; rproj; auto; try lia.
Qed.

Lemma slice_concat X n1 n2 :
  0 <= n1 -> 0 <= n2 -> n1 + n2 <= 32 ->
  Z.lor (X mod 2 ^ n1) (u32 (shl (X / 2 ^ n1 mod 2 ^ n2) n1)) = X mod 2 ^ (n1 + n2).
Proof.
  intros H1 H2 Hs. pose proof (pow2_pos n1 H1) as Hp1. pose proof (pow2_pos n2 H2) as Hp2.
  pose proof (Z.mod_pos_bound X (2 ^ n1) Hp1) as Hm1.
  pose proof (Z.mod_pos_bound (X / 2 ^ n1) (2 ^ n2) Hp2) as Hm2.
  assert (Hb : 2 ^ n2 * 2 ^ n1 <= 2 ^ 32).
  { rewrite <- Z.pow_add_r by lia. apply Z.pow_le_mono_r; lia. }
  unfold shl. rewrite u32_small.
  2:{ split; [apply Z.mul_nonneg_nonneg; lia|].
      apply Z.lt_le_trans with (2 ^ n2 * 2 ^ n1); [|exact Hb].
      apply Z.mul_lt_mono_pos_r; lia. }
  rewrite lor_add by lia. rewrite Z.pow_add_r, Z.rem_mul_r by lia. lia.
Qed.

Lemma get_bits_RA F L r n :
  0 <= F < 2 ^ (8 * L) -> RA F L r -> 1 <= n <= 31 -> r_pos L r + n <= 8 * L ->
  let '(v, r') := get_bits r n in
  v = F / 2 ^ r_pos L r mod 2 ^ n /\
  RA F L r' /\ r_same_ac r r' /\ r_pos L r' = r_pos L r + n.
Proof.
  intros HF H Hn Hp. rewrite get_bits_take. pose proof (ra_n _ _ _ H) as Hrn.
  destruct (r_n r + n <=? 32) eqn:E.
  - apply accu_take_RA; auto; lia.
  - cbv zeta.
    destruct (accu_load_RA F L r HF H ltac:(lia)) as (H1 & C1 & P1 & N1).
    set (r1 := accu_load r) in *. clearbody r1. pose proof (ra_n _ _ _ H1) as Hn1.
    set (n1 := Z.min (32 - r_n r1) n).
    assert (Hn1b : 1 <= n1 <= n /\ r_n r1 + n1 <= 32 /\ n - n1 <= 6) by lia.
    clearbody n1.
    pose proof (accu_take_RA F L r1 n1 H1 ltac:(lia) ltac:(lia) ltac:(lia) ltac:(lia)) as T1.
    destruct (accu_take r1 n1) as [v1 r2]. destruct T1 as (V1 & H2 & C2 & P2).
    destruct (n - n1 =? 0) eqn:E2.
    + assert (En : n1 = n) by lia. rewrite En in *. rewrite <- P1.
      split; [exact V1|]. split; [exact H2|].
      split; [unfold r_same_ac in *; intuition congruence|]. lia.
    + destruct (accu_load_RA F L r2 HF H2 ltac:(lia)) as (H3 & C3 & P3 & N3).
      set (r3 := accu_load r2) in *. clearbody r3. pose proof (ra_n _ _ _ H3) as Hn3.
      pose proof (accu_take_RA F L r3 (n - n1) H3 ltac:(lia) ltac:(lia) ltac:(lia) ltac:(lia))
        as T2.
      destruct (accu_take r3 (n - n1)) as [v2 r4]. destruct T2 as (V2 & H4 & C4 & P4).
      split; [|split; [exact H4|split; [unfold r_same_ac in *; intuition congruence|lia]]].
      rewrite V1, V2, P3, P2, P1.
      assert (Hp0 : 0 <= r_pos L r) by (unfold r_pos; pose proof (ra_base _ _ _ H); lia).
      rewrite <- (div_div_pow F (r_pos L r) n1) by lia.
      rewrite slice_concat by lia. do 2 f_equal. lia.
Qed.

(** ** Symbol search *)

(** For a well-formed model the search returns the only symbol whose interval
    contains [low]. *)
Lemma search_symbol_spec low r m :
  wf_model m -> 0 < r -> 0 <= low < r * 1024 ->
  let s := search_symbol low r m in
  0 <= s <= 16 /\ r * sym_low m s <= low < r * (sym_low m s + sym_range m s).
Proof.
  intros Hm Hr Hl. destruct Hm as (_ & H0 & Hc & Ht & _).
  pose proof (Hc 0 ltac:(lia)); pose proof (Hc 1 ltac:(lia)); pose proof (Hc 2 ltac:(lia));
  pose proof (Hc 3 ltac:(lia)); pose proof (Hc 4 ltac:(lia)); pose proof (Hc 5 ltac:(lia));
  pose proof (Hc 6 ltac:(lia)); pose proof (Hc 7 ltac:(lia)); pose proof (Hc 8 ltac:(lia));
  pose proof (Hc 9 ltac:(lia)); pose proof (Hc 10 ltac:(lia)); pose proof (Hc 11 ltac:(lia));
  pose proof (Hc 12 ltac:(lia)); pose proof (Hc 13 ltac:(lia)); pose proof (Hc 14 ltac:(lia));
  pose proof (Hc 15 ltac:(lia)); clear Hc.
  cbn [Z.add Z.pos_sub Pos.add Pos.succ Pos.add_carry] in *.
  unfold search_symbol. cbv zeta.
  destruct (low <? r * sym_low m 16) eqn:E16.
  2:{ split; [lia|]. rewrite Ht. lia. }
  assert (Hz : r * sym_low m 0 <= low) by (rewrite H0; lia).
  assert (Hfin : forall s t, t = s + 1 -> sym_low m t = sym_low m s + sym_range m s ->
    0 <= s <= 15 -> (low <? r * sym_low m s) = false -> (low <? r * sym_low m t) = true ->
    0 <= s <= 16 /\ r * sym_low m s <= low < r * (sym_low m s + sym_range m s)).
  { intros s t _ Es Hs Ea Eb. split; [lia|]. rewrite <- Es. lia. }
  assert (E0 : (low <? r * sym_low m 0) = false) by lia.
  destruct (low <? r * sym_low m 8) eqn:E8; cbn [Z.sub Z.opp Z.add Z.pos_sub Pos.add Pos.succ Pos.add_carry Pos.pred_double Z.pred_double Z.succ_double Z.double].
  all: repeat match goal with
  | |- context [?lo <? ?r * sym_low ?m ?k] =>
      let k' := eval cbv in k in change k with k';
      destruct (lo <? r * sym_low m k') eqn:?
  end; cbn [b2z].
  all: match goal with
 | |- context [sym_low ?m ?k] =>
      let k' := eval cbv in k in change k with k'
  end.
  all: match goal with
  | |- context [sym_low ?m ?k] => let t := eval cbv in (k + 1) in
      apply (Hfin k t); [reflexivity|assumption|lia|assumption|assumption]
  end.
Qed.

Lemma sym_interval_unique low r m s t :
  wf_model m -> 0 < r -> 0 <= s <= 16 -> 0 <= t <= 16 ->
  r * sym_low m s <= low < r * (sym_low m s + sym_range m s) ->
  r * sym_low m t <= low < r * (sym_low m t + sym_range m t) -> s = t.
Proof.
  intros Hm Hr Hs Ht H1 H2.
  assert (Hlt : forall a b, 0 <= a < b -> b <= 16 ->
     r * sym_low m b <= low -> low < r * (sym_low m a + sym_range m a) -> False).
  { intros a b Hab Hb Hlo Hhi. pose proof Hm as (_ & _ & Hc & _).
    rewrite <- (Hc a) in Hhi by lia.
    pose proof (wf_model_mono m (a + 1) (Z.to_nat (b - a - 1)) Hm ltac:(lia)) as Hx.
    rewrite Z2Nat.id in Hx by lia. specialize (Hx ltac:(lia)).
    replace (a + 1 + (b - a - 1)) with b in Hx by lia. nia. }
  destruct (Z.lt_trichotomy s t) as [Hc|[Hc|Hc]]; [exfalso|exact Hc|exfalso].
  - apply (Hlt s t); lia.
  - apply (Hlt t s); lia.
Qed.

(** ** Window of the arithmetic decoder in the frame *)

Definition gwin (F L k : Z) : Z := F * 2 ^ 24 / 2 ^ (8 * (L - k)).

Lemma gwin_step F L k buf :
  bytes buf -> zlen buf = L -> bval buf = F -> 0 <= k -> k + 1 <= L ->
  gwin F L (k + 1) = gwin F L k * 256 + znth buf (k + 3) 0.
Proof.
  intros Hb HL HF Hk Hk1. unfold gwin.
  set (d := 8 * (L - (k + 1))).
  replace (8 * (L - k)) with (d + 8) by lia.
  rewrite <- div_div_pow by lia.
  assert (Hd0 : 0 <= d) by lia. pose proof (pow2_pos d Hd0) as Hp.
  set (X := F * 2 ^ 24 / 2 ^ d). change (2 ^ 8) with 256.
  pose proof (Z.div_mod X 256 ltac:(lia)) as Hdm.
  assert (E : X mod 256 = znth buf (k + 3) 0); [|lia].
  destruct (Z.lt_ge_cases (k + 3) L) as [Hlt|Hge].
  - rewrite (byte_slice F L) by (auto; lia). unfold X.
    replace d with (8 * (L - 1 - (k + 3)) + 24) by lia.
    rewrite Z.pow_add_r by lia.
    rewrite Z.div_mul_cancel_r; [reflexivity| |lia].
    pose proof (pow2_pos (8 * (L - 1 - (k + 3))) ltac:(lia)). lia.
  - rewrite znth_over by lia. unfold X.
    replace 24 with ((24 - d - 8) + 8 + d) by lia.
    rewrite !Z.pow_add_r by lia.
    rewrite !Z.mul_assoc, Z.div_mul by lia.
    change (2 ^ 8) with 256. apply Z.mod_mul. lia.
Qed.

(** ** Simulation of the abstract state *)

Record RSim (F L : Z) (r : rst) (a : ast) : Prop := mkRSim {
  rs_ra : RA F L r;
  rs_pos : r_pos L r = a_pos a;
  rs_R : r_range r = a_R a;
  rs_low : r_low r = gwin F L (a_k a) - a_B a;
  rs_fw : r_fw r = Z.min (a_k a + 3) L;
  rs_err : r_error r = false }.

Lemma RSim_left F L r a : RSim F L r a -> a_k a + 3 <= L -> r_bits_left r = a_left L a.
Proof.
  intros H Hk. unfold r_bits_left, a_left, pending_bits.
  rewrite (rs_R _ _ _ _ H), (rs_fw _ _ _ _ H).
  pose proof (rs_pos _ _ _ _ H) as Hp. unfold r_pos, r_base in Hp. cbn [b2z Z.leb].
  change (b2z (0 <=? -1)) with 0. lia.
Qed.

Lemma RSim_left_ge F L r a : RSim F L r a -> a_left L a <= r_bits_left r.
Proof.
  intros H. unfold r_bits_left, a_left, pending_bits.
  rewrite (rs_R _ _ _ _ H), (rs_fw _ _ _ _ H).
  pose proof (rs_pos _ _ _ _ H) as Hp. unfold r_pos, r_base in Hp.
  change (b2z (0 <=? -1)) with 0. lia.
Qed.

Lemma get_bits_sim F L r a v n :
  op_ok (PutBits v n) -> a_ok a -> RSim F L r a -> Fin F L (a_bits a v n) ->
  exists r', get_bits r n = (v, r') /\ RSim F L r' (a_bits a v n).
Proof.
  intros Ho Ha HR HF. destruct (Fin_bits _ _ _ _ _ Ho Ha HF) as (_ & Hv).
  destruct Ho as (Hn & _). destruct HR as [H Hp HRr Hl Hfw He].
  pose proof (fin_pos _ _ _ HF) as Hpos. cbn [a_bits a_pos] in Hpos.
  pose proof (get_bits_RA F L r n (fin_F _ _ _ HF) H Hn ltac:(lia)) as Hg.
  destruct (get_bits r n) as [v' r']. destruct Hg as (Ev & H' & C & P).
  exists r'. rewrite Hp, Hv in Ev. split; [congruence|].
  destruct C as (C1 & C2 & C3 & C4 & _).
  constructor; cbn [a_bits a_B a_R a_k a_pos a_W]; auto; try congruence; lia.
Qed.

(** One byte of renormalisation. *)
Definition r_renorm_step (r : rst) : rst :=
  let '(b, r) := ac_get r in
  r_set_ac r (Z.land (Z.lor (u32 (shl (r_low r) 8)) b) (2 ^ 24 - 1))
    (u32 (shl (r_range r) 8)) (r_error r).

Lemma r_renorm_S fuel r :
  r_renorm (S fuel) r =
  if r_range r <? 65536 then r_renorm fuel (r_renorm_step r) else r.
Proof.
  cbn [r_renorm]. unfold r_renorm_step. destruct (r_range r <? 65536); [|reflexivity].
  destruct (ac_get r). reflexivity.
Qed.
Lemma r_renorm_done fuel r : 65536 <= r_range r -> r_renorm fuel r = r.
Proof.
  intros H. destruct fuel; cbn [r_renorm];
    replace (r_range r <? 65536) with false by lia; reflexivity.
Qed.

(** Decoder state between two renormalisation rounds. *)
Record RMid (F L : Z) (r : rst) (B R k pos : Z) : Prop := mkRMid {
  rm_ra : RA F L r;
  rm_pos : r_pos L r = pos;
  rm_R : r_range r = R;
  rm_low : r_low r = gwin F L k - B;
  rm_lowb : 0 <= r_low r < R;
  rm_fw : r_fw r = Z.min (k + 3) L;
  rm_err : r_error r = false }.

Lemma r_renorm_step_sim F L r B R k pos :
  RMid F L r B R k pos -> 0 <= k -> k + 1 <= L -> 0 < R < 65536 ->
  RMid F L (r_renorm_step r) (B * 256) (R * 256) (k + 1) pos.
Proof.
  intros [H Hp HR Hl Hlb Hfw He] Hk Hk1 HRb.
  set (b := znth (r_buf r) (k + 3) 0).
  pose proof (gwin_step F L k (r_buf r) (ra_bytes _ _ _ H) (ra_len _ _ _ H)
    (ra_val _ _ _ H) Hk Hk1) as Hg. fold b in Hg.
  assert (Hb : 0 <= b < 256) by (apply znth_bytes; exact (ra_bytes _ _ _ H)).
  assert (Hget : exists r1, ac_get r = (b, r1) /\ RA F L r1 /\ r_pos L r1 = pos /\
     r_range r1 = R /\ r_low r1 = r_low r /\ r_fw r1 = Z.min (k + 1 + 3) L /\
     r_error r1 = false).
  { unfold ac_get, r_load. rewrite (ra_len _ _ _ H).
    destruct (r_fw r <? L) eqn:E.
    - assert (Ef : r_fw r = k + 3) by lia. rewrite Ef.
      eexists. split; [reflexivity|]. 
      assert (Hin : inb (k + 3) L = true) by (unfold inb; lia). rewrite Hin. rproj.
      split.
      { destruct H. constructor; unfold r_base in *; rproj; auto.
        rewrite ra_oob0. reflexivity. }
      unfold r_pos, r_base in *. rproj.
      split; [exact Hp|]. split; [exact HR|]. split; [reflexivity|].
      split; [lia|exact He].
    - exists r. assert (b = 0).
      { unfold b. apply znth_over. rewrite (ra_len _ _ _ H). lia. }
      split; [congruence|]. split; [exact H|]. split; [exact Hp|]. split; [exact HR|].
      split; [reflexivity|]. split; [lia|exact He]. }
  destruct Hget as (r1 & Eg & H1 & P1 & R1 & L1 & F1 & E1).
  unfold r_renorm_step. rewrite Eg. unfold shl. change (2 ^ 8) with 256.
  rewrite L1, R1. rewrite !u32_small by lia.
  assert (Elor : Z.lor (r_low r * 256) b = r_low r * 256 + b).
  { rewrite Z.lor_comm. change 256 with (2 ^ 8). rewrite lor_add by lia. lia. }
  rewrite Elor, land_24, Z.mod_small by lia.
  constructor.
  - destruct H1. constructor; unfold r_base in *; rproj; auto.
  - unfold r_pos, r_base in *. rproj. exact P1.
  - rproj. reflexivity.
  - rproj. rewrite Hg. lia.
  - rproj. lia.
  - rproj. exact F1.
  - rproj. exact E1.
Qed.

Lemma get_symbol_sim F L r a m s :
  op_ok (PutSym m s) -> a_ok a -> RSim F L r a -> Fin F L (a_sym a m s) ->
  exists r', get_symbol r m = (s, r') /\ RSim F L r' (a_sym a m s).
Proof.
  intros Ho Ha HS HF. destruct (Fin_sym _ _ _ _ _ Ho Ha HF) as (HF0 & Hlo & Hhi).
  destruct HS as [H Hp HRr Hl Hfw He].
  pose proof Ha as (HR & _ & Hk & _).
  destruct (sym_split _ _ _ Ho HR) as (Hr1 & Hr2 & Hr3 & Hr4 & Hr5).
  pose proof (fin_k _ _ _ HF0) as HkL. pose proof (fin_k _ _ _ HF) as HkF.
  unfold a_sym in HkF. cbv zeta in HkF. cbn [a_k] in HkF.
  set (ra := a_R a / 1024) in *.
  set (lo := ra * sym_low m s) in *. set (R1 := ra * sym_range m s) in *.
  assert (Er : Z.land (shr (r_range r) 10) 65535 = ra).
  { rewrite land_65535, HRr. unfold shr. change (2 ^ 10) with 1024. fold ra.
    apply Z.mod_small. lia. }
  pose proof (pow2_pos (8 * (L - a_k a)) ltac:(lia)) as Hpp.
  assert (Hg : a_B a + lo <= gwin F L (a_k a) < a_B a + lo + R1).
  { unfold gwin. split.
    - apply Z.div_le_lower_bound; lia.
    - apply Z.div_lt_upper_bound; lia. }
  assert (Hlow : lo <= r_low r < lo + R1) by lia.
  pose proof Ho as (Hm & Hs & Hsr). pose proof Hm as (Hlen & _).
  unfold get_symbol. rewrite Er, He.
  assert (Eerr : (shl ra 10 <=? r_low r) = false).
  { unfold shl. change (2 ^ 10) with 1024. lia. }
  rewrite Eerr. cbn [orb].
  assert (Es : search_symbol (r_low r) ra m = s).
  { destruct (search_symbol_spec (r_low r) ra m Hm ltac:(lia) ltac:(lia)) as (Hs1 & Hs2).
    apply (sym_interval_unique (r_low r) ra m); auto; try lia. }
  rewrite Es, Hlen. fold lo. fold R1.
  assert (Hin : inb s 17 = true) by (unfold inb; lia). rewrite Hin. cbn [negb].
  rewrite !u32_small by lia.
  set (r1 := r_set_ac _ _ _ _).
  assert (HM : RMid F L r1 (a_B a + lo) R1 (a_k a) (a_pos a)).
  { constructor; unfold r1; rproj; auto; try lia.
    - destruct H. constructor; unfold r_base in *; rproj; auto.
      rewrite ra_oob0. reflexivity. }
  assert (HR1 : r_range r1 = R1) by reflexivity.
  clearbody r1. eexists. split; [reflexivity|].
  replace (if r_range r1 <? 65536 then r_renorm 2 r1 else r1) with (r_renorm 2 r1)
    by (rewrite r_renorm_S; destruct (r_range r1 <? 65536); reflexivity).
  assert (Hfin : RMid F L (r_renorm 2 r1) ((a_B a + lo) * 256 ^ jshift R1)
                   (R1 * 256 ^ jshift R1) (a_k a + jshift R1) (a_pos a)).
  { unfold jshift in HkF |- *. rewrite r_renorm_S, HR1.
    destruct (R1 <? 65536) eqn:E1.
    - pose proof (r_renorm_step_sim _ _ _ _ _ _ _ HM Hk) as HM1.
      destruct (R1 <? 256) eqn:E2.
      + specialize (HM1 ltac:(lia) ltac:(lia)).
        rewrite r_renorm_S, (rm_R _ _ _ _ _ _ _ HM1).
        replace (R1 * 256 <? 65536) with true by lia.
        pose proof (r_renorm_step_sim _ _ _ _ _ _ _ HM1 ltac:(lia) ltac:(lia) ltac:(lia))
          as HM2.
        rewrite r_renorm_done by (rewrite (rm_R _ _ _ _ _ _ _ HM2); lia).
        change (256 ^ 2) with (256 * 256). rewrite !Z.mul_assoc.
        replace (a_k a + 2) with (a_k a + 1 + 1) by lia. exact HM2.
      + specialize (HM1 ltac:(lia) ltac:(lia)).
        rewrite r_renorm_done by (rewrite (rm_R _ _ _ _ _ _ _ HM1); lia).
        rewrite Z.pow_1_r. exact HM1.
    - replace (R1 <? 256) with false by lia.
      rewrite Z.pow_0_r, !Z.mul_1_r, Z.add_0_r. exact HM. }
  destruct Hfin as [M1 M2 M3 M4 M5 M6 M7].
  constructor; unfold a_sym; cbv zeta; cbn [a_B a_R a_k a_pos a_W];
    fold ra; fold lo; fold R1; auto.
Qed.

Lemma RSim_init hw buf F L :
  bytes buf -> zlen buf = L -> bval buf = F -> 1 <= L ->
  RSim F L (r_setup hw buf) a_init.
Proof.
  intros Hb EL EF HL. pose proof (bval_bound buf Hb) as HF.
  rewrite pow256, EL, EF in HF by lia.
  unfold r_setup. rewrite EL.
  set (r0 := mkR buf 0 L 0 32 0 0 (2 ^ 24 - 1) false hw false false false).
  (* three bytes *)
  assert (Hget : forall r fw, r_buf r = buf -> r_fw r = fw -> 0 <= fw <= L -> r_oob r = false ->
    exists r', ac_get r = (znth buf fw 0, r') /\
     r' = r_set_fw r (Z.min (fw + 1) L)).
  { intros r fw E1 E2 Hfw E3. unfold ac_get, r_load. rewrite E1, EL, E2.
    destruct (fw <? L) eqn:E.
    - eexists. split; [reflexivity|].
      assert (Hin : inb fw L = true) by (unfold inb; lia). rewrite Hin.
      rewrite Z.min_l by lia. unfold r_set_fw, r_flag_oob. rproj.
      rewrite E3, E2. reflexivity.
    - exists r. rewrite znth_over by (rewrite EL; lia). split; [reflexivity|].
      rewrite Z.min_r by lia. unfold r_set_fw. destruct r. rproj. f_equal. lia. }
  destruct (Hget r0 0 eq_refl eq_refl ltac:(lia) eq_refl) as (r1 & E1 & R1).
  rewrite E1.
  destruct (Hget r1 (Z.min 1 L)) as (r2 & E2 & R2);
    [rewrite R1; reflexivity|rewrite R1; reflexivity|lia|rewrite R1; reflexivity|].
  rewrite E2.
  destruct (Hget r2 (Z.min (Z.min 1 L + 1) L)) as (r3 & E3 & R3);
    [rewrite R2, R1; reflexivity|rewrite R2; reflexivity|lia|rewrite R2, R1; reflexivity|].
  rewrite E3.
  set (low := Z.lor _ _).
  set (r4 := r_set_ac _ _ _ _).
  assert (Er4 : r4 = mkR buf (Z.min 3 L) L 0 32 0 low (2 ^ 24 - 1) false hw false false false).
  { unfold r4. rewrite R3, R2, R1. unfold r0. rproj. f_equal. lia. }
  rewrite Er4. clear Er4. clearbody r4. clear r4.
  assert (Elow : low = gwin F L 0).
  { assert (G : forall k, 0 <= k <= 2 -> F * 2 ^ (8 * (k + 1)) / 2 ^ (8 * L) =
       F * 2 ^ (8 * k) / 2 ^ (8 * L) * 256 + znth buf k 0).
    { intros k Hk. rewrite (Z.mul_comm 8 (k + 1)). 
      replace ((k + 1) * 8) with (8 * k + 8) by lia.
      destruct (Z.lt_ge_cases k L) as [Hlt|Hge].
      - rewrite (byte_slice F L) by (auto; lia).
        replace (8 * L) with (8 * (L - 1 - k) + (8 * k + 8)) by lia.
        rewrite (Z.pow_add_r 2 (8 * (L - 1 - k))) by lia.
        pose proof (pow2_pos (8 * (L - 1 - k)) ltac:(lia)).
        pose proof (pow2_pos (8 * k + 8) ltac:(lia)).
        rewrite Z.div_mul_cancel_r by lia.
        replace (2 ^ (8 * (L - 1 - k)) * 2 ^ (8 * k + 8))
          with (2 ^ (8 * (L - 1 - k)) * 2 ^ 8 * 2 ^ (8 * k)).
        2:{ rewrite <- !Z.pow_add_r by lia. f_equal. lia. }
        pose proof (pow2_pos (8 * k) ltac:(lia)).
        rewrite Z.div_mul_cancel_r by lia.
        rewrite <- Z.div_div by lia. change (2 ^ 8) with 256.
        pose proof (Z.div_mod (F / 2 ^ (8 * (L - 1 - k))) 256 ltac:(lia)). lia.
      - rewrite znth_over by (rewrite EL; lia).
        pose proof (pow2_pos (8 * L) ltac:(lia)).
        assert (Ek : 2 ^ (8 * k) = 2 ^ (8 * (k - L)) * 2 ^ (8 * L)).
        { rewrite <- Z.pow_add_r by lia. f_equal. lia. }
        rewrite (Z.pow_add_r 2 (8 * k) 8), Ek by lia.
        replace (F * (2 ^ (8 * (k - L)) * 2 ^ (8 * L) * 2 ^ 8))
          with (F * 2 ^ (8 * (k - L)) * 256 * 2 ^ (8 * L)) by (change (2 ^ 8) with 256; ring).
        rewrite (Z.mul_assoc F), !Z.div_mul by lia. lia. }
    assert (G0 : F * 2 ^ (8 * 0) / 2 ^ (8 * L) = 0).
    { rewrite Z.mul_0_r, Z.pow_0_r, Z.mul_1_r. apply Z.div_small. lia. }
    pose proof (G 0 ltac:(lia)) as G1. pose proof (G 1 ltac:(lia)) as G2.
    pose proof (G 2 ltac:(lia)) as G3. cbn [Z.add Pos.add Pos.succ] in G1, G2, G3.
    unfold gwin. rewrite Z.sub_0_r. change 24 with (8 * 3). rewrite G3, G2, G1, G0.
    unfold low.
    replace (znth buf (Z.min 1 L) 0) with (znth buf 1 0).
    2:{ destruct (Z.eq_dec L 1) as [HL1|HL1]; f_equal; lia. }
    replace (znth buf (Z.min (Z.min 1 L + 1) L) 0) with (znth buf 2 0).
    2:{ destruct (Z.le_gt_cases 2 L) as [HL1|HL1]; [f_equal; lia|].
        rewrite !znth_over by (rewrite EL; lia). reflexivity. }
    pose proof (znth_bytes buf 0 Hb). pose proof (znth_bytes buf 1 Hb).
    pose proof (znth_bytes buf 2 Hb).
    unfold shl. rewrite (Z.lor_comm (znth buf 0 0 * 2 ^ 16)).
    assert (En : znth buf 1 0 * 2 ^ 8 < 2 ^ 16) by (change (2 ^ 8) with 256; lia).
    rewrite lor_add by lia.
    replace (znth buf 1 0 * 2 ^ 8 + znth buf 0 0 * 2 ^ 16)
      with ((znth buf 1 0 + znth buf 0 0 * 256) * 2 ^ 8) by (change (2 ^ 16) with (256 * 2 ^ 8); ring).
    rewrite Z.lor_comm, lor_add by (change (2 ^ 8) with 256; lia).
    change (2 ^ 8) with 256. lia. }
  clearbody low.
  (* first load: the base is below the frame before it *)
  unfold accu_load. rproj. cbv zeta. change (shr 32 3) with 4.
  set (nb := Z.min 4 L).
  (* generic state of the loop *)
  assert (Hloop : forall n r, r_buf r = buf -> 0 <= r_bw r - Z.of_nat n -> r_bw r <= L ->
    L - r_bw r + Z.of_nat n <= 4 -> r_nover r = 0 -> r_oob r = false ->
    r_v r = F * 2 ^ 32 / 2 ^ (8 * (L - r_bw r)) mod 2 ^ 32 ->
    let r' := accu_load_loop n r in
    r_v r' = F * 2 ^ 32 / 2 ^ (8 * (L - r_bw r')) mod 2 ^ 32 /\
    r_bw r' = r_bw r - Z.of_nat n /\ r_oob r' = false /\ r_buf r' = buf /\
    r_n r' = r_n r /\ r_nover r' = 0 /\ r_same_ac r r' /\ r_ub r' = r_ub r /\
    r_stuck r' = r_stuck r).
  { induction n as [|n IH]; intros r Ebuf Hb1 Hb2 Hb3 Hno Hoob Hv.
    - cbn [accu_load_loop]. cbv zeta. split; [exact Hv|]. split; [lia|].
      repeat split; auto.
    - rewrite Nat2Z.inj_succ in *. cbn [accu_load_loop]. unfold r_load.
      set (r' := r_set_accu _ _ _ _).
      assert (Hr' : r_buf r' = buf /\ r_bw r' = r_bw r - 1 /\ r_nover r' = 0 /\
        r_oob r' = false /\ r_n r' = r_n r /\ r_same_ac r r' /\ r_ub r' = r_ub r /\
        r_stuck r' = r_stuck r /\
        r_v r' = F * 2 ^ 32 / 2 ^ (8 * (L - r_bw r')) mod 2 ^ 32).
      { unfold r'. rproj. rewrite Ebuf, EL.
        split; [reflexivity|]. split; [reflexivity|]. split; [exact Hno|].
        split; [rewrite Hoob; unfold inb; lia|]. split; [reflexivity|].
        split; [repeat split|]. split; [reflexivity|]. split; [reflexivity|].
        rewrite Hv. rewrite (byte_slice F L) by (auto; lia).
        unfold shl, shr.
        set (A := 8 * (L - r_bw r)). assert (HA : 0 <= A) by lia.
        assert (HA32 : A <= 24) by lia.
        replace (8 * (L - 1 - (r_bw r - 1))) with A by lia.
        replace (8 * (L - (r_bw r - 1))) with (A + 8) by lia.
        rewrite div_mod_pow by lia. rewrite div_div_pow by lia.
        pose proof (Z.mod_pos_bound (F / 2 ^ A) 256 ltac:(lia)) as Hm.
        rewrite u32_small by lia.
        change (32 - 8) with 24.
        rewrite lor_add by (try lia; apply Z.mod_pos_bound; lia).
        set (X := F * 2 ^ 32 / 2 ^ (A + 8)).
        change (2 ^ 32) with (2 ^ 24 * 256).
        rewrite (Z.rem_mul_r X (2 ^ 24) 256) by lia.
        replace (X / 2 ^ 24) with (F / 2 ^ A); [lia|].
        unfold X. rewrite div_div_pow by lia.
        replace (A + 8 + 24) with (A + 32) by lia.
        rewrite Z.pow_add_r by lia. pose proof (pow2_pos A HA).
        rewrite Z.div_mul_cancel_r by lia. reflexivity. }
      clearbody r'. clear Hget E1 R1 r1 E2 R2 r2 E3 R3 r3 r0 Elow nb Hv.
      destruct Hr' as (K1 & K2 & K3 & K4 & K5 & K6 & K7 & K8 & K9).
      destruct (IH r' K1 ltac:(lia) ltac:(lia) ltac:(lia) K3 K4 K9)
        as (J1 & J2 & J3 & J4 & J5 & J6 & J7 & J8 & J9).
      cbv zeta. split; [exact J1|]. split; [lia|]. split; [exact J3|].
      split; [exact J4|]. split; [congruence|]. split; [exact J6|].
      split; [unfold r_same_ac in *; intuition congruence|].
      split; congruence. }
  set (ri := mkR buf (Z.min 3 L) L 0 (32 - 8 * nb) 0 low (2 ^ 24 - 1) false hw false false false).
  destruct (Hloop (Z.to_nat nb) ri) as (J1 & J2 & J3 & J4 & J5 & J6 & J7 & J8 & J9);
    try (unfold ri; rproj; auto; lia).
  { unfold ri. rproj. rewrite Z.sub_diag, Z.mul_0_r, Z.pow_0_r, Z.div_1_r.
    symmetry. apply Z.mod_mul. lia. }
  set (r' := accu_load_loop (Z.to_nat nb) ri) in *. clearbody r'.
  unfold ri in J2, J5, J7, J8, J9. unfold r_same_ac in J7. rproj.
  destruct J7 as (C1 & C2 & C3 & C4 & C5).
  rewrite Z2Nat.id in J2 by lia.
  assert (Hgoal : forall rr nv, r_buf rr = buf -> r_bw rr = L - nb -> r_n rr = 0 ->
    r_nover rr = nv -> nv = 32 - 8 * nb -> r_v rr = F mod 2 ^ 32 ->
    r_oob rr = false -> r_ub rr = false -> r_stuck rr = false ->
    r_fw rr = Z.min 3 L -> r_low rr = low -> r_range rr = 2 ^ 24 - 1 -> r_error rr = false ->
    RSim F L rr a_init).
  { clear - Hb EL EF HL Elow nb. intros rr nv D1 D2 D3 D4 D5 D6 D7 D8 D9 D10 D11 D12 D13.
    assert (Hnb : 1 <= nb <= 4 /\ nb <= L /\ (nb < 4 -> nb = L)) by (unfold nb; lia). clearbody nb.
    assert (Eb : r_base L rr = 0) by (unfold r_base; lia).
    constructor; cbn [a_init a_B a_R a_k a_pos a_W]; auto; try lia.
    - constructor; try (rewrite D1; auto); try lia; try congruence.
      rewrite Eb, Z.pow_0_r, Z.div_1_r. exact D6.
    - unfold r_pos. lia. }
  rewrite J5. destruct (8 <=? 32 - 8 * nb) eqn:E8.
  - assert (HL4 : nb = L) by lia. replace (32 - 8 * nb <? 32) with true by lia.
    apply (Hgoal _ (32 - 8 * nb)); rproj; auto; try congruence; try lia.
    rewrite J1, J2. unfold shr. 
    replace (8 * (L - (L - nb))) with (8 * nb) by lia.
    assert (Hsm : F < 2 ^ 32).
    { assert (2 ^ (8 * L) <= 2 ^ 32) by (apply Z.pow_le_mono_r; lia). lia. }
    replace 32 with ((32 - 8 * nb) + 8 * nb) at 1 by lia.
    pose proof (pow2_pos (8 * nb) ltac:(lia)).
    pose proof (pow2_pos (32 - 8 * nb) ltac:(lia)).
    rewrite Z.pow_add_r, Z.mul_assoc, Z.div_mul by lia.
    rewrite (Z.mod_small (F * _)).
    2:{ rewrite <- HL4 in HF. set (P := 2 ^ (32 - 8 * nb)) in *.
        replace (2 ^ 32) with (2 ^ (8 * nb) * P)
          by (unfold P; rewrite <- Z.pow_add_r by lia; f_equal; lia).
        clear - HF H0. nia. }
    rewrite Z.div_mul by lia. rewrite Z.mod_small by lia. reflexivity.
  - assert (Enb : nb = 4) by lia.
    apply (Hgoal _ (32 - 8 * nb)); rproj; auto; try congruence; try lia.
    rewrite J1, J2. replace (8 * (L - (L - nb))) with 32 by lia.
    rewrite Z.div_mul by lia. reflexivity.
Qed.

(** ** Reading back a sequence *)

(** What the reader asks for, and the value expected. *)
Definition rstep (r : rst) (o : wop) : Z * rst :=
  match o with
  | PutBits _ n => get_bits r n
  | PutSym m _ => get_symbol r m
  end.
Definition op_value (o : wop) : Z :=
  match o with PutBits v _ => v | PutSym _ s => s end.

Fixpoint rsteps (r : rst) (ops : list wop) : list Z * rst :=
  match ops with
  | [] => ([], r)
  | o :: ops =>
      let '(v, r) := rstep r o in
      let '(vs, r) := rsteps r ops in (v :: vs, r)
  end.

Lemma rstep_sim F L r a o :
  op_ok o -> a_ok a -> RSim F L r a -> Fin F L (astep a o) ->
  exists r', rstep r o = (op_value o, r') /\ RSim F L r' (astep a o).
Proof.
  destruct o as [v n|m s]; cbn [astep rstep op_value]; intros Ho Ha HS HF.
  - apply get_bits_sim; assumption.
  - apply get_symbol_sim; assumption.
Qed.

Lemma rsteps_sim F L ops : forall r a,
  Forall op_ok ops -> a_ok a -> RSim F L r a -> Fin F L (fold_left astep ops a) ->
  exists r', rsteps r ops = (map op_value ops, r') /\
    RSim F L r' (fold_left astep ops a).
Proof.
  induction ops as [|o ops IH]; intros r a Ho Ha HS HF; cbn [rsteps fold_left map] in *.
  - exists r. split; [reflexivity|exact HS].
  - inversion Ho as [|? ? Ho1 Ho2]; subst.
    pose proof (astep_ok _ _ Ho1 Ha) as Ha1.
    destruct (rstep_sim F L r a o Ho1 Ha HS (Fin_steps _ _ _ _ Ho2 Ha1 HF)) as (r1 & E1 & S1).
    destruct (IH r1 _ Ho2 Ha1 S1 HF) as (r2 & E2 & S2).
    exists r2. rewrite E1, E2. split; [reflexivity|exact S2].
Qed.
