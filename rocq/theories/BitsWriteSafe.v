(** * The writer never leaves its buffer, whatever is written (C09), and the
    number of bits left never increases back from an overflow *)
From Coq Require Import ZArith List Bool Lia ZifyBool.
From Verif Require Import Base BaseProofs BitsModel.
Import ListNotations.
Local Open Scope Z_scope.

(** Well-formed probability model: 17 contiguous intervals covering [0, 1024). *)
Definition wf_model (m : model) : Prop :=
  zlen m = 17 /\ sym_low m 0 = 0 /\
  (forall s, 0 <= s < 16 -> sym_low m (s + 1) = sym_low m s + sym_range m s) /\
  sym_low m 16 + sym_range m 16 = 1024 /\
  (forall s, 0 <= s <= 16 -> 0 <= sym_range m s).

Lemma wf_model_mono m s n :
  wf_model m -> 0 <= s -> s + Z.of_nat n <= 16 ->
  sym_low m s <= sym_low m (s + Z.of_nat n).
Proof.
  intros (_ & _ & Hs & _ & Hr) H0. induction n as [|n IH]; intros Hn.
  - rewrite Z.add_0_r. lia.
  - rewrite Nat2Z.inj_succ in *.
    replace (s + Z.succ (Z.of_nat n)) with ((s + Z.of_nat n) + 1) by lia.
    rewrite Hs by lia. specialize (Hr (s + Z.of_nat n)). lia.
Qed.

Lemma wf_model_bounds m s :
  wf_model m -> 0 <= s <= 16 ->
  0 <= sym_low m s /\ 0 <= sym_range m s /\ sym_low m s + sym_range m s <= 1024.
Proof.
  intros Hm Hs. pose proof Hm as (_ & H0 & Hc & Ht & Hr).
  assert (Hge : 0 <= sym_low m s).
  { pose proof (wf_model_mono m 0 (Z.to_nat s) Hm ltac:(lia)) as H.
    rewrite Z2Nat.id in H by lia. specialize (H ltac:(lia)). cbn [Z.add] in H. lia. }
  split; [assumption|]. split; [auto|].
  destruct (Z.eq_dec s 16) as [->|Hne]; [lia|].
  rewrite <- Hc by lia.
  pose proof (wf_model_mono m (s + 1) (Z.to_nat (15 - s)) Hm ltac:(lia)) as H.
  rewrite Z2Nat.id in H by lia. specialize (H ltac:(lia)).
  replace (s + 1 + (15 - s)) with 16 in H by lia.
  specialize (Hr 16 ltac:(lia)). lia.
Qed.

(** Symbol that can be coded: in the model, with a non-empty interval. *)
Definition ok_sym (m : model) (s : Z) : Prop :=
  wf_model m /\ 0 <= s <= 16 /\ 0 < sym_range m s.

(** ** Range bits *)

Lemma range_bits_spec r : 0 < r -> 2 ^ (range_bits r - 1) <= r < 2 ^ range_bits r.
Proof.
  intros H. unfold range_bits. replace (r <=? 0) with false by lia.
  replace (1 + Z.log2 r - 1) with (Z.log2 r) by lia.
  pose proof (Z.log2_spec r H). replace (1 + Z.log2 r) with (Z.succ (Z.log2 r)) by lia.
  lia.
Qed.
Lemma range_bits_pos r : 0 < r -> 1 <= range_bits r.
Proof.
  intros H. unfold range_bits. replace (r <=? 0) with false by lia.
  pose proof (Z.log2_nonneg r). lia.
Qed.
Lemma range_bits_mono r s : 0 < r <= s -> range_bits r <= range_bits s.
Proof.
  intros H. unfold range_bits.
  replace (r <=? 0) with false by lia. replace (s <=? 0) with false by lia.
  pose proof (Z.log2_le_mono r s). lia.
Qed.
Lemma range_bits_shift r : 0 < r -> range_bits (r * 256) = range_bits r + 8.
Proof.
  intros H. unfold range_bits.
  replace (r <=? 0) with false by lia. replace (r * 256 <=? 0) with false by lia.
  change 256 with (2 ^ 8). rewrite Z.log2_mul_pow2 by lia. lia.
Qed.
Lemma range_bits_bounds r : 65536 <= r < 2 ^ 24 -> 17 <= range_bits r <= 24.
Proof.
  intros H. pose proof (range_bits_mono 65536 r ltac:(lia)) as H1.
  pose proof (range_bits_mono r (2 ^ 24 - 1) ltac:(lia)) as H2.
  change (range_bits 65536) with 17 in H1.
  change (range_bits (2 ^ 24 - 1)) with 24 in H2. lia.
Qed.

(** ** Basic invariant of the writer *)

Record WB (lo L : Z) (w : wst) : Prop := mkWB {
  wb_len : zlen (w_buf w) = L;
  wb_bytes : bytes (w_buf w);
  wb_fw : 0 <= w_fw w <= L;
  wb_bw : 0 <= w_bw w <= L;
  wb_n : 0 <= w_n w <= 32;
  wb_low : 0 <= w_low w < 2 ^ 24;
  wb_range : lo <= w_range w < 2 ^ 24;
  wb_cache : -1 <= w_cache w <= 255;
  wb_carry : 0 <= w_carry w <= 1;
  wb_cc : 0 <= w_cc w;
  wb_oob : w_oob w = false;
  wb_ub : w_ub w = false;
  wb_stuck : w_stuck w = false }.

(** Number of bytes shifted out of the arithmetic coder. *)
Definition w_k (w : wst) : Z := w_fw w + b2z (0 <=? w_cache w) + w_cc w.

Lemma w_bits_left_k w :
  w_bits_left w =
  8 * w_bw w - w_n w - 26 + range_bits (w_range w) - 8 * w_k w.
Proof. unfold w_bits_left, pending_bits, w_k. lia. Qed.

(** Fields unchanged by the arithmetic coder side. *)
Definition same_accu (w w' : wst) : Prop :=
  w_bw w' = w_bw w /\ w_v w' = w_v w /\ w_n w' = w_n w.
Lemma same_accu_refl w : same_accu w w.
Proof. repeat split. Qed.
Lemma same_accu_trans a b c : same_accu a b -> same_accu b c -> same_accu a c.
Proof. unfold same_accu. intuition congruence. Qed.

Definition same_ac (w w' : wst) : Prop :=
  w_low w' = w_low w /\ w_range w' = w_range w /\ w_cache w' = w_cache w /\
  w_carry w' = w_carry w /\ w_cc w' = w_cc w.

Ltac wproj :=
  unfold w_set_fw, w_set_bw, w_set_accu, w_set_ac, w_flag_ub, w_flag_stuck, w_store in *;
  cbn [w_buf w_fw w_bw w_v w_n w_low w_range w_cache w_carry w_cc
                   w_oob w_ub w_stuck] in *.

Lemma w_store_WB lo L w i v :
  WB lo L w -> 0 <= i < L -> WB lo L (w_store w i v).
Proof.
  intros H Hi. destruct H. unfold w_store. constructor; wproj; auto.
  - rewrite zlen_upd. auto.
  - apply upd_Forall; [assumption|]. apply u8_range.
  - rewrite wb_oob0, wb_len0. unfold inb.
    replace (0 <=? i) with true by lia. replace (i <? L) with true by lia. reflexivity.
Qed.

Lemma ac_put_spec lo L w b :
  WB lo L w ->
  WB lo L (ac_put w b) /\ same_accu w (ac_put w b) /\ same_ac w (ac_put w b) /\
  w_fw (ac_put w b) = Z.min (w_fw w + 1) L.
Proof.
  intros H. unfold ac_put. rewrite (wb_len _ _ _ H).
  pose proof (wb_fw _ _ _ H) as Hf.
  destruct (w_fw w <? L) eqn:E.
  - pose proof (w_store_WB _ _ _ (w_fw w) b H ltac:(lia)) as H'.
    split; [|split; [repeat split|split; [repeat split|]]].
    + destruct H'. constructor; wproj; auto. lia.
    + unfold w_set_fw. wproj. lia.
  - split; [exact H|]. split; [apply same_accu_refl|]. split; [repeat split|]. lia.
Qed.

Lemma ac_put_n_spec lo L n w b :
  WB lo L w ->
  WB lo L (ac_put_n n w b) /\ same_accu w (ac_put_n n w b) /\
  same_ac w (ac_put_n n w b) /\
  w_fw (ac_put_n n w b) = Z.min (w_fw w + Z.of_nat n) L.
Proof.
  revert w. induction n as [|n IH]; intros w H.
  - cbn [ac_put_n]. split; [exact H|]. split; [apply same_accu_refl|].
    split; [repeat split|]. pose proof (wb_fw _ _ _ H). lia.
  - cbn [ac_put_n]. destruct (ac_put_spec _ _ w b H) as (H1 & A1 & C1 & F1).
    destruct (IH _ H1) as (H2 & A2 & C2 & F2).
    split; [exact H2|]. split; [eapply same_accu_trans; eauto|].
    split; [unfold same_ac in *; intuition congruence|].
    pose proof (wb_fw _ _ _ H). lia.
Qed.

Lemma ac_shift_WB lo L w :
  WB lo L w ->
  WB lo L (ac_shift w) /\ same_accu w (ac_shift w) /\
  w_range (ac_shift w) = w_range w /\
  (w_k (ac_shift w) = w_k w + 1 \/ w_fw (ac_shift w) = L).
Proof.
  intros H. unfold ac_shift.
  assert (Hlow : forall x, 0 <= Z.land x (2 ^ 24 - 1) < 2 ^ 24)
    by (intros x; rewrite land_24; apply Z.mod_pos_bound; lia).
  destruct ((w_low w <? 16711680) || negb (w_carry w =? 0)) eqn:E.
  - set (w1 := if 0 <=? w_cache w then ac_put w (w_cache w + w_carry w) else w).
    assert (H1 : WB lo L w1 /\ same_accu w w1 /\ same_ac w w1 /\
      w_fw w1 = Z.min (w_fw w + b2z (0 <=? w_cache w)) L).
    { unfold w1. destruct (0 <=? w_cache w).
      - apply ac_put_spec. exact H.
      - split; [exact H|]. split; [apply same_accu_refl|]. split; [repeat split|].
        pose proof (wb_fw _ _ _ H). cbn [b2z]. lia. }
    clearbody w1. destruct H1 as (H1 & A1 & C1 & F1).
    destruct (ac_put_n_spec _ _ (Z.to_nat (w_cc w)) w1
                (if w_carry w =? 0 then 255 else 0) H1) as (H2 & A2 & C2 & F2).
    cbv zeta. set (w2 := ac_put_n _ w1 _) in *. clearbody w2.
    pose proof (wb_low _ _ _ H) as Hl. pose proof (wb_fw _ _ _ H) as Hf.
    pose proof (wb_cc _ _ _ H) as Hcc. pose proof (wb_range _ _ _ H) as Hr.
    assert (Hc : 0 <= shr (w_low w) 16 <= 255).
    { unfold shr. split; [apply Z.div_pos; lia|].
      assert (w_low w / 2 ^ 16 < 256); [|lia]. apply Z.div_lt_upper_bound; lia. }
    rewrite F1 in F2.
    split; [|split; [|split]].
    + destruct H2. constructor; unfold w_set_ac; wproj; auto; try lia.
    + eapply same_accu_trans; [exact A1|].
      destruct A2 as (? & ? & ?). repeat split; unfold w_set_ac; wproj; auto.
    + unfold w_set_ac. wproj. reflexivity.
    + unfold w_k, w_set_ac. wproj.
      replace (0 <=? shr (w_low w) 16) with true by lia.
      pose proof (b2z_range (0 <=? w_cache w)).
      change (b2z true) with 1. lia.
  - cbv zeta. unfold w_set_ac. split; [|split; [|split]]; wproj.
    + destruct H. constructor; wproj; auto. lia.
    + repeat split.
    + reflexivity.
    + unfold w_k. wproj. lia.
Qed.

Lemma w_renorm_unfold fuel w :
  w_renorm fuel w =
  if w_range w <? 65536 then
    match fuel with
    | O => w_flag_stuck w
    | S k =>
        let w := ac_shift w in
        w_renorm k (w_set_ac w (w_low w) (u32 (shl (w_range w) 8))
                      (w_cache w) (w_carry w) (w_cc w))
    end
  else w.
Proof. destruct fuel; reflexivity. Qed.

(** One round of the renormalisation. *)
Definition renorm_step (w : wst) : wst :=
  let w := ac_shift w in
  w_set_ac w (w_low w) (u32 (shl (w_range w) 8)) (w_cache w) (w_carry w) (w_cc w).

Lemma w_renorm_S fuel w :
  w_renorm (S fuel) w =
  if w_range w <? 65536 then w_renorm fuel (renorm_step w) else w.
Proof. reflexivity. Qed.

Lemma renorm_step_WB L w :
  WB 1 L w -> w_range w < 65536 ->
  WB 1 L (renorm_step w) /\ same_accu w (renorm_step w) /\
  w_range (renorm_step w) = w_range w * 256 /\
  (w_k (renorm_step w) = w_k w + 1 \/ w_fw (renorm_step w) = L).
Proof.
  intros H Hr. destruct (ac_shift_WB _ _ _ H) as (H1 & A1 & R1 & K1).
  pose proof (wb_range _ _ _ H) as Hr'.
  assert (E : u32 (shl (w_range (ac_shift w)) 8) = w_range w * 256).
  { rewrite R1. unfold shl. change (2 ^ 8) with 256. apply u32_small. lia. }
  unfold renorm_step. cbv zeta. rewrite E. unfold w_set_ac.
  split; [|split; [|split]]; wproj.
  - destruct H1. constructor; wproj; auto. lia.
  - exact A1.
  - reflexivity.
  - exact K1.
Qed.

Lemma w_renorm_WB L w :
  WB 1 L w ->
  WB 65536 L (w_renorm 2 w) /\ same_accu w (w_renorm 2 w) /\
  exists j : Z, 0 <= j <= 2 /\ w_range (w_renorm 2 w) = w_range w * 256 ^ j /\
  (w_k (w_renorm 2 w) = w_k w + j \/ w_fw (w_renorm 2 w) = L).
Proof.
  intros H.
  assert (Hup : forall u, WB 1 L u -> 65536 <= w_range u -> WB 65536 L u).
  { intros u Hu Hx. destruct Hu. constructor; auto. lia. }
  rewrite w_renorm_S. destruct (w_range w <? 65536) eqn:E1.
  2:{ split; [apply Hup; [exact H|lia]|]. split; [apply same_accu_refl|].
      exists 0. split; [lia|]. split; [rewrite Z.pow_0_r; lia|]. left. lia. }
  destruct (renorm_step_WB _ _ H ltac:(lia)) as (H1 & A1 & R1 & K1).
  rewrite w_renorm_S. destruct (w_range (renorm_step w) <? 65536) eqn:E2.
  2:{ split; [apply Hup; [exact H1|lia]|]. split; [exact A1|].
      exists 1. split; [lia|]. split; [rewrite Z.pow_1_r; lia|]. exact K1. }
  destruct (renorm_step_WB _ _ H1 ltac:(lia)) as (H2 & A2 & R2 & K2).
  pose proof (wb_range _ _ _ H) as Hr.
  rewrite w_renorm_unfold.
  replace (w_range (renorm_step (renorm_step w)) <? 65536) with false by lia.
  split; [apply Hup; [exact H2|lia]|]. split; [eapply same_accu_trans; eauto|].
  exists 2. split; [lia|].
  split; [rewrite R2, R1; change (256 ^ 2) with (256 * 256); lia|].
  destruct K2 as [K2|K2]; [|right; exact K2].
  destruct K1 as [K1|K1]; [left; lia|right].
  (* once at the end of the buffer, the position does not move *)
  revert K1. clear - H1 E2. intros K1.
  assert (Hput : forall u b, WB 1 L u -> w_fw u = L -> w_fw (ac_put u b) = L).
  { intros u b Hu Hf. destruct (ac_put_spec _ _ u b Hu) as (_ & _ & _ & F). lia. }
  destruct (ac_shift_WB _ _ _ H1) as (Hs & _ & _ & _).
  unfold renorm_step at 1. cbv zeta. unfold w_set_ac. wproj.
  set (u := renorm_step w) in *. clearbody u.
  unfold ac_shift.
  destruct ((w_low u <? 16711680) || negb (w_carry u =? 0)).
  - cbv zeta. unfold w_set_ac. wproj.
    set (u1 := if 0 <=? w_cache u then ac_put u (w_cache u + w_carry u) else u).
    assert (Hu1 : WB 1 L u1 /\ w_fw u1 = L).
    { unfold u1. destruct (0 <=? w_cache u); [|split; [exact H1|exact K1]].
      split; [apply ac_put_spec; exact H1|apply Hput; assumption]. }
    destruct Hu1 as (Hu1 & Fu1).
    destruct (ac_put_n_spec _ _ (Z.to_nat (w_cc u)) u1
               (if w_carry u =? 0 then 255 else 0) Hu1) as (_ & _ & _ & F). lia.
  - cbv zeta. unfold w_set_ac. wproj. exact K1.
Qed.

Lemma put_symbol_WB L w m s :
  ok_sym m s -> WB 65536 L w ->
  WB 65536 L (put_symbol w m s) /\ same_accu w (put_symbol w m s) /\
  (w_bits_left (put_symbol w m s) <= w_bits_left w \/
   w_bits_left (put_symbol w m s) < 0).
Proof.
  intros (Hm & Hs & Hsr) H.
  destruct (wf_model_bounds m s Hm Hs) as (Hlo & _ & Hhi).
  pose proof Hm as (Hlen & _).
  unfold put_symbol. cbv zeta.
  set (r := shr (w_range (w_flag_ub w (negb (inb s (zlen m))))) 10).
  assert (Er : r = w_range w / 1024) by reflexivity.
  pose proof (wb_range _ _ _ H) as Hr.
  assert (Hr2 : 64 <= r < 16384).
  { rewrite Er. split.
    - apply Z.div_le_lower_bound; lia.
    - apply Z.div_lt_upper_bound; lia. }
  assert (Hr3 : r * 1024 <= w_range w).
  { rewrite Er. pose proof (Z.mul_div_le (w_range w) 1024). lia. }
  set (low := u32 _).
  set (w1 := w_set_ac _ _ _ _ _ _).
  assert (Hrange : w_range w1 = r * sym_range m s).
  { unfold w1, w_set_ac. wproj. apply u32_small. nia. }
  assert (Hlow : 0 <= low < 2 ^ 25).
  { unfold low. wproj. pose proof (wb_low _ _ _ H).
    rewrite u32_small; unfold w_flag_ub; wproj; nia. }
  assert (H1 : WB 1 L w1).
  { assert (Hub : w_ub w || negb (inb s (zlen m)) = false).
    { rewrite (wb_ub _ _ _ H), Hlen. unfold inb.
      replace (0 <=? s) with true by lia. replace (s <? 17) with true by lia. reflexivity. }
    assert (Hcarry : 0 <= Z.lor (w_carry w) (shr low 24) <= 1).
    { unfold shr. assert (Hq : low / 2 ^ 24 = 0 \/ low / 2 ^ 24 = 1).
      { assert (0 <= low / 2 ^ 24) by (apply Z.div_pos; lia).
        assert (low / 2 ^ 24 < 2) by (apply Z.div_lt_upper_bound; lia). lia. }
      pose proof (wb_carry _ _ _ H).
      assert (Hc : w_carry w = 0 \/ w_carry w = 1) by lia.
      destruct Hq as [-> | ->]; destruct Hc as [-> | ->]; cbn; lia. }
    assert (Hrr : 1 <= u32 (r * sym_range m s) < 2 ^ 24) by (rewrite u32_small; nia).
    clearbody low r. clear Hrange.
    unfold w1. destruct H. constructor; unfold w_set_ac, w_flag_ub; wproj; auto.
    rewrite land_24. apply Z.mod_pos_bound. lia. }
  assert (A1 : same_accu w w1) by (repeat split).
  assert (K1 : w_k w1 = w_k w) by reflexivity.
  clearbody w1. clear low Hlow.
  destruct (w_renorm_WB _ _ H1) as (H2 & A2 & j & Hj & R2 & K2).
  assert (Heq : (if w_range w1 <? 65536 then w_renorm 2 w1 else w1) = w_renorm 2 w1).
  { rewrite w_renorm_S. destruct (w_range w1 <? 65536); reflexivity. }
  rewrite Heq. clear Heq.
  set (w2 := w_renorm 2 w1) in *. clearbody w2.
  split; [exact H2|]. split; [eapply same_accu_trans; eauto|].
  rewrite !w_bits_left_k.
  destruct (same_accu_trans _ _ _ A1 A2) as (Eb & _ & En). rewrite Eb, En.
  pose proof (wb_range _ _ _ H2) as Hr4.
  destruct K2 as [K2|K2].
  - left. rewrite K2, K1.
    assert (Erb : range_bits (w_range w2) = range_bits (w_range w1) + 8 * j).
    { rewrite R2. pose proof (wb_range _ _ _ H1).
      assert (j = 0 \/ j = 1 \/ j = 2) as [->|[->| ->]] by lia.
      - rewrite Z.pow_0_r, Z.mul_1_r. lia.
      - rewrite Z.pow_1_r, range_bits_shift by lia. lia.
      - change (256 ^ 2) with (256 * 256). rewrite Z.mul_assoc.
        rewrite !range_bits_shift by lia. lia. }
    rewrite Erb.
    pose proof (range_bits_mono (w_range w1) (w_range w) ltac:(nia)). lia.
  - right. pose proof (wb_bw _ _ _ H) as Hb. pose proof (wb_n _ _ _ H) as Hn.
    pose proof (range_bits_bounds _ Hr4). unfold w_k. rewrite K2.
    pose proof (wb_cc _ _ _ H2). pose proof (b2z_range (0 <=? w_cache w2)). lia.
Qed.

(** ** Bits accumulator *)

Lemma accu_flush_loop_spec lo L n w :
  WB lo L w -> Z.of_nat n <= w_bw w ->
  WB lo L (accu_flush_loop n w) /\ same_ac w (accu_flush_loop n w) /\
  w_fw (accu_flush_loop n w) = w_fw w /\ w_n (accu_flush_loop n w) = w_n w /\
  w_bw (accu_flush_loop n w) = w_bw w - Z.of_nat n.
Proof.
  revert w. induction n as [|n IH]; intros w H Hn.
  - cbn [accu_flush_loop]. split; [exact H|]. split; [repeat split|]. lia.
  - cbn [accu_flush_loop]. rewrite Nat2Z.inj_succ in Hn.
    pose proof (wb_bw _ _ _ H) as Hb.
    set (w1 := w_set_accu _ _ _).
    assert (H1 : WB lo L w1 /\ w_bw w1 = w_bw w - 1 /\ w_fw w1 = w_fw w /\
                 w_n w1 = w_n w /\ same_ac w w1).
    { split; [|repeat split].
      assert (Hx : WB lo L (w_set_bw w (w_bw w - 1))).
      { destruct H. constructor; unfold w_set_bw; wproj; auto; lia. }
      assert (Hy : WB lo L (w_store (w_set_bw w (w_bw w - 1)) (w_bw w - 1)
                (Z.land (w_v w) 255))).
      { apply w_store_WB; [exact Hx|lia]. }
      unfold w1. destruct Hy. constructor; unfold w_set_accu; wproj; auto. }
    clearbody w1. destruct H1 as (H1 & B1 & F1 & N1 & C1).
    destruct (IH w1 H1 ltac:(lia)) as (H2 & C2 & F2 & N2 & B2).
    split; [exact H2|]. split; [unfold same_ac in *; intuition congruence|]. lia.
Qed.

Lemma accu_flush_spec lo L w :
  WB lo L w ->
  let nb := Z.min (w_n w / 8) (Z.max (w_bw w - w_fw w) 0) in
  WB lo L (accu_flush w) /\ same_ac w (accu_flush w) /\
  w_fw (accu_flush w) = w_fw w /\
  w_bw (accu_flush w) = w_bw w - nb /\ 0 <= nb <= w_bw w /\
  w_n (accu_flush w) = (if 8 <=? w_n w - 8 * nb then 0 else w_n w - 8 * nb).
Proof.
  intros H nb. pose proof (wb_n _ _ _ H) as Hn. pose proof (wb_fw _ _ _ H) as Hf.
  assert (Hq : 0 <= w_n w / 8) by (apply Z.div_pos; lia).
  pose proof (Z.mul_div_le (w_n w) 8 ltac:(lia)) as Hq2.
  pose proof (wb_bw _ _ _ H) as Hb.
  assert (Hnb : 0 <= nb <= w_bw w) by lia.
  assert (Hnb2 : 8 * nb <= w_n w) by lia.
  unfold accu_flush, shr. change (2 ^ 3) with 8. fold nb. cbv zeta.
  set (w1 := w_set_accu w (w_v w) (w_n w - 8 * nb)).
  assert (H1 : WB lo L w1).
  { unfold w1. destruct H. constructor; unfold w_set_accu; wproj; auto. lia. }
  destruct (accu_flush_loop_spec _ _ (Z.to_nat nb) w1 H1) as (H2 & C2 & F2 & N2 & B2).
  { unfold w1, w_set_accu. wproj. lia. }
  set (w2 := accu_flush_loop _ w1) in *. clearbody w2.
  assert (E1 : w_fw w1 = w_fw w /\ w_bw w1 = w_bw w /\ w_n w1 = w_n w - 8 * nb /\
               same_ac w w1) by (repeat split).
  clearbody w1. destruct E1 as (F1 & B1 & N1 & C1).
  rewrite N2, N1.
  destruct (8 <=? w_n w - 8 * nb) eqn:E.
  - split; [|split; [|split; [|split; [|split; [exact Hnb|]]]]].
    + destruct H2. constructor; unfold w_set_accu; wproj; auto. lia.
    + unfold same_ac in *. unfold w_set_accu. wproj. intuition congruence.
    + unfold w_set_accu. wproj. lia.
    + unfold w_set_accu. wproj. lia.
    + reflexivity.
  - split; [exact H2|]. split; [unfold same_ac in *; intuition congruence|].
    split; [lia|]. split; [lia|]. split; [exact Hnb|]. lia.
Qed.

Lemma put_bits_WB lo L w v n :
  1 <= n <= 32 -> WB lo L w -> 1 <= lo ->
  WB lo L (put_bits w v n) /\ same_ac w (put_bits w v n) /\
  w_fw (put_bits w v n) = w_fw w /\
  (w_bits_left (put_bits w v n) <= w_bits_left w - n \/
   w_bits_left (put_bits w v n) < 0) /\
  (n + w_n w <= 8 * (w_bw w - w_fw w) ->
   w_bits_left (put_bits w v n) = w_bits_left w - n).
Proof.
  intros Hn H Hlo. unfold put_bits. pose proof (wb_n _ _ _ H) as Hwn.
  set (v' := u32 v). clearbody v'. clear v.
  destruct (w_n w + n <=? 32) eqn:E.
  - assert (Hub : negb (inb (w_n w) 32) = false) by (unfold inb; lia).
    rewrite Hub.
    split; [|split; [repeat split|split; [reflexivity|]]].
    + destruct H. constructor; unfold w_set_accu, w_flag_ub; wproj; auto; try lia; rewrite ?wb_ub0; reflexivity.
    + unfold w_bits_left, w_set_accu, w_flag_ub. wproj. lia.
  - unfold put_bits_generic. cbv zeta.
    set (n1 := Z.min (32 - w_n w) n). assert (Hn1 : n1 = 32 - w_n w) by lia.
    set (w1 := if n1 =? 0 then w else _).
    assert (H1 : WB lo L w1 /\ w_n w1 = 32 /\ w_fw w1 = w_fw w /\ w_bw w1 = w_bw w /\
                 same_ac w w1).
    { unfold w1. destruct (n1 =? 0) eqn:E0.
      - split; [exact H|]. split; [lia|]. repeat split.
      - split; [|repeat split].
        destruct H. constructor; unfold w_set_accu; wproj; auto. lia. }
    clearbody w1. destruct H1 as (H1 & N1 & F1 & B1 & C1).
    destruct (accu_flush_spec _ _ _ H1) as (H2 & C2 & F2 & B2 & Hnb & N2).
    set (w2 := accu_flush w1) in *. clearbody w2.
    rewrite N1, F1, B1 in *. change (32 / 8) with 4 in *.
    pose proof (wb_range _ _ _ H) as Hr.
    assert (Hrb : 1 <= range_bits (w_range w) <= 24).
    { pose proof (range_bits_pos (w_range w) ltac:(lia)).
      pose proof (range_bits_mono (w_range w) (2 ^ 24 - 1) ltac:(lia)) as Hx.
      change (range_bits (2 ^ 24 - 1)) with 24 in Hx. lia. }
    assert (C3 : same_ac w w2) by (unfold same_ac in *; intuition congruence).
    destruct C3 as (Cl & Cr & Cc & Cy & Ck).
    assert (Hp : 2 <= pending_bits (w_range w) (w_cache w) (w_cc w)).
    { unfold pending_bits. pose proof (b2z_range (0 <=? w_cache w)).
      pose proof (wb_cc _ _ _ H). lia. }
    split; [|split; [|split; [|split]]].
    + destruct H2. constructor; unfold w_set_accu; wproj; auto. lia.
    + unfold same_ac, w_set_accu. wproj. intuition congruence.
    + unfold w_set_accu. wproj. lia.
    + unfold w_bits_left, w_set_accu. wproj. rewrite Cr, Cc, Ck, F2, B2. lia.
    + intros Hsp. unfold w_bits_left, w_set_accu. wproj. rewrite Cr, Cc, Ck, F2, B2. lia.
Qed.

(** ** Termination and flush *)

Lemma aligned_bound z q t :
  0 <= q <= t -> z mod 2 ^ q = 0 -> z < 2 ^ t -> z + 2 ^ q <= 2 ^ t.
Proof.
  intros Hq Hz Hlt. pose proof (pow2_pos q ltac:(lia)) as Hp.
  apply Z.mod_divide in Hz; [|lia]. destruct Hz as [a ->].
  replace t with ((t - q) + q) in * by lia. rewrite Z.pow_add_r in * by lia.
  apply Z.mul_lt_mono_pos_r in Hlt; [|exact Hp].
  replace (a * 2 ^ q + 2 ^ q) with ((a + 1) * 2 ^ q) by ring.
  apply Z.mul_le_mono_nonneg_r; lia.
Qed.

Lemma terminate_value_spec low range :
  0 <= low < 2 ^ 24 -> 65536 <= range < 2 ^ 24 ->
  let '(nbits, val, c) := terminate_value low range in
  let v := val + (if c then 2 ^ 24 else 0) in
  1 <= nbits <= 26 - range_bits range /\ nbits <= 9 /\
  0 <= val < 2 ^ 24 /\ val mod 2 ^ (24 - nbits) = 0 /\
  low <= v /\ v + 2 ^ (24 - nbits) <= low + range.
Proof.
  intros Hl Hr. unfold terminate_value.
  pose proof (range_bits_bounds _ Hr) as Hb.
  pose proof (range_bits_spec range ltac:(lia)) as Hrs.
  set (rb := range_bits range) in *. clearbody rb.
  set (nb := 25 - rb).
  assert (Hmask : shr (2 ^ 24 - 1) nb = 2 ^ (24 - nb) - 1).
  { unfold shr, nb. assert (rb = 17 \/ rb = 18 \/ rb = 19 \/ rb = 20 \/ rb = 21 \/
      rb = 22 \/ rb = 23 \/ rb = 24) as Hc by lia.
    repeat (destruct Hc as [->|Hc]; [reflexivity|]). subst rb. reflexivity. }
  rewrite Hmask. set (p := 24 - nb) in *.
  assert (Hp : p = rb - 1) by (unfold p, nb; lia).
  assert (Hpow : 2 ^ p <= range) by (rewrite Hp; lia).
  assert (Hpow2 : 2 ^ p = 2 * 2 ^ (p - 1)).
  { rewrite <- Z.pow_succ_r by lia. f_equal. lia. }
  pose proof (pow2_pos p ltac:(lia)) as Hpp.
  pose proof (pow2_pos (p - 1) ltac:(lia)) as Hpp1.
  assert (Hp24 : 2 ^ 24 = 2 ^ (24 - p) * 2 ^ p).
  { rewrite <- Z.pow_add_r by lia. f_equal. lia. }
  assert (Hp24' : 2 ^ 24 = 2 ^ (24 - (p - 1)) * 2 ^ (p - 1)).
  { rewrite <- Z.pow_add_r by lia. f_equal. lia. }
  rewrite !land_24.
  rewrite (u32_small (low + (2 ^ p - 1))) by lia.
  rewrite (u32_small (low + range)) by lia.
  assert (Hdiv24 : forall x, 0 <= x < 2 * 2 ^ 24 ->
    shr x 24 = (if x <? 2 ^ 24 then 0 else 1) /\
    x mod 2 ^ 24 = (if x <? 2 ^ 24 then x else x - 2 ^ 24)).
  { intros x Hx. unfold shr. destruct (x <? 2 ^ 24) eqn:E.
    - split; [apply Z.div_small; lia|apply Z.mod_small; lia].
    - split; symmetry; [apply Z.div_unique with (x - 2 ^ 24)|apply Z.mod_unique with 1]; lia. }
  destruct (Hdiv24 (low + (2 ^ p - 1)) ltac:(lia)) as [Ev Mv].
  destruct (Hdiv24 (low + range) ltac:(lia)) as [Eh Mh].
  rewrite Ev, Eh, Mh. clear Ev Eh Mh.
  rewrite !ldiff_mask by lia.
  (* round up to a multiple of 2^q *)
  assert (Hround : forall q, 0 <= q <= 24 -> 2 ^ 24 = 2 ^ (24 - q) * 2 ^ q ->
    let x := low + (2 ^ q - 1) in
    let u := x / 2 ^ q * 2 ^ q in
    low <= u <= x /\ u mod 2 ^ q = 0 /\
    (x mod 2 ^ 24) / 2 ^ q * 2 ^ q = (if x <? 2 ^ 24 then u else u - 2 ^ 24) /\
    (2 ^ 24 <= x -> 2 ^ 24 <= u)).
  { intros q Hq E24 x u. pose proof (pow2_pos q ltac:(lia)) as Hqp.
    pose proof (Z.div_mod x (2 ^ q) ltac:(lia)) as Hdm.
    pose proof (Z.mod_pos_bound x (2 ^ q) Hqp) as Hmb.
    assert (Hu : u = x - x mod 2 ^ q) by (unfold u; lia).
    split; [unfold x in *; lia|].
    split; [unfold u; apply Z.mod_mul; lia|].
    split.
    - assert (2 ^ q <= 2 ^ 24) by (apply Z.pow_le_mono_r; lia).
      destruct (Hdiv24 x ltac:(unfold x; lia)) as [_ Mx]. rewrite Mx.
      destruct (x <? 2 ^ 24); [reflexivity|].
      unfold u. rewrite E24 at 1.
      replace (x - 2 ^ (24 - q) * 2 ^ q) with (x + (- 2 ^ (24 - q)) * 2 ^ q) by ring.
      rewrite Z.div_add by lia. rewrite E24. ring.
    - intros Hx. unfold u. 
      assert (2 ^ (24 - q) <= x / 2 ^ q) by (apply Z.div_le_lower_bound; lia).
      nia. }
  pose proof (Hround p ltac:(lia) Hp24) as Hp1. cbv zeta in Hp1.
  destruct Hp1 as (U1 & U2 & U3 & U4). rewrite U3. clear U3.
  assert (Hm1 : shr (2 ^ p - 1) 1 = 2 ^ (p - 1) - 1).
  { unfold shr. rewrite Hpow2. change (2 ^ 1) with 2. symmetry.
    apply Z.div_unique with 1; lia. }
  rewrite Hm1.
  pose proof (Hround (p - 1) ltac:(lia) Hp24') as Hp2. cbv zeta in Hp2.
  destruct Hp2 as (V1 & V2 & V3 & V4).
  rewrite (u32_small (low + (2 ^ (p - 1) - 1))) by lia.
  rewrite ldiff_mask, V3 by lia. clear V3.
  set (u := (low + (2 ^ p - 1)) / 2 ^ p * 2 ^ p) in *.
  set (u' := (low + (2 ^ (p - 1) - 1)) / 2 ^ (p - 1) * 2 ^ (p - 1)) in *.
  assert (Hmul : forall q z, 0 <= q <= 24 -> 2 ^ 24 = 2 ^ (24 - q) * 2 ^ q ->
     z mod 2 ^ q = 0 -> (z - 2 ^ 24) mod 2 ^ q = 0).
  { intros q z Hq E Hz. rewrite E.
    replace (z - 2 ^ (24 - q) * 2 ^ q) with (z + (- 2 ^ (24 - q)) * 2 ^ q) by ring.
    rewrite Z_mod_plus_full. exact Hz. }
  pose proof (Hmul p u ltac:(lia) Hp24 U2) as U2'.
  pose proof (Hmul (p - 1) u' ltac:(lia) Hp24' V2) as V2'.
  pose proof (aligned_bound u p 24 ltac:(lia) U2) as Hal.
  pose proof (aligned_bound u' (p - 1) 24 ltac:(lia) V2) as Hal'.
  assert (Epn : 24 - nb = p) by (unfold p; lia).
  assert (Epn1 : 24 - (nb + 1) = p - 1) by lia.
  clearbody u u'. clear Hround Hmul Hdiv24.
  destruct (low + (2 ^ p - 1) <? 2 ^ 24) eqn:Eov;
  destruct (low + range <? 2 ^ 24) eqn:Eoh; cbn [Z.eqb negb Bool.eqb].
  - destruct (low + range <=? u + (2 ^ p - 1)) eqn:Ec.
    + rewrite Epn1. replace (low + (2 ^ (p - 1) - 1) <? 2 ^ 24) with true by lia.
      replace (u' <? low) with false by lia. cbv iota. lia.
    + rewrite Epn. replace (u <? low) with false by lia. cbv iota. lia.
  - rewrite Epn. lia.
  - lia.
  - destruct (low + range - 2 ^ 24 <=? u - 2 ^ 24 + (2 ^ p - 1)) eqn:Ec.
    + rewrite Epn1. destruct (low + (2 ^ (p - 1) - 1) <? 2 ^ 24) eqn:E3.
      * replace (u' <? low) with false by lia. cbv iota. lia.
      * replace (u' - 2 ^ 24 <? low) with true by lia. cbv iota. lia.
    + rewrite Epn. replace (u - 2 ^ 24 <? low) with true by lia. cbv iota. lia.
Qed.

Lemma carry_lor a b : 0 <= a <= 1 -> 0 <= Z.lor a (b2z b) <= 1.
Proof.
  intros H. assert (a = 0 \/ a = 1) as [->| ->] by lia; destruct b; cbn; lia.
Qed.

Lemma ac_terminate_WB L w : WB 65536 L w -> WB 65536 L (ac_terminate w).
Proof.
  intros H. unfold ac_terminate.
  pose proof (terminate_value_spec (w_low w) (w_range w) (wb_low _ _ _ H)
                (wb_range _ _ _ H)) as Ht.
  destruct (terminate_value (w_low w) (w_range w)) as [[nbits val] c].
  cbv zeta in Ht. destruct Ht as (Hn1 & Hn2 & Hv & _).
  set (w1 := w_set_ac w val _ _ _ _).
  assert (H1 : WB 65536 L w1).
  { unfold w1. pose proof (carry_lor (w_carry w) c (wb_carry _ _ _ H)).
    destruct H. constructor; wproj; auto. }
  clearbody w1.
  destruct (if 8 <? nbits then (ac_shift w1, nbits - 8) else (w1, nbits))
    as [w2 nb2] eqn:E2.
  assert (H2 : WB 65536 L w2 /\ 1 <= nb2 <= 8).
  { destruct (8 <? nbits) eqn:E; inversion E2; subst.
    - split; [apply ac_shift_WB; exact H1|lia].
    - split; [exact H1|lia]. }
  destruct H2 as (H2 & Hnb). clear E2 H1 w1.
  destruct (ac_shift_WB _ _ _ H2) as (H3 & _).
  set (w3 := ac_shift w2) in *. clearbody w3.
  destruct (if w_cc w3 =? 0 then _ else _) as [w4 ev] eqn:E4.
  assert (H4 : WB 65536 L w4).
  { destruct (w_cc w3 =? 0).
    - inversion E4; subst. exact H3.
    - cbv zeta in E4. inversion E4; subst.
      destruct (ac_put_spec _ _ w3 (w_cache w3) H3) as (Ha & _).
      destruct (ac_put_n_spec _ _ (Z.to_nat (w_cc (ac_put w3 (w_cache w3)) - 1))
                 (ac_put w3 (w_cache w3)) 255 Ha) as (Hb & _).
      set (u := ac_put_n _ _ _) in *. clearbody u.
      destruct Hb. constructor; wproj; auto. lia. }
  clear E4.
  set (w5 := w_flag_ub w4 (negb (inb nb2 9))).
  assert (H5 : WB 65536 L w5).
  { unfold w5. destruct H4. constructor; wproj; auto.
    rewrite wb_ub0. unfold inb. lia. }
  clearbody w5. cbv zeta.
  destruct (w_fw w5 <? zlen (w_buf w5)) eqn:E; [|exact H5].
  pose proof (wb_fw _ _ _ H5) as Hf. pose proof (wb_len _ _ _ H5) as Hlen.
  apply w_store_WB; [apply w_store_WB|]; auto; wproj; lia.
Qed.

Lemma pad_loop_WB lo L fuel n w :
  1 <= lo -> WB lo L w -> WB lo L (pad_loop fuel n w).
Proof.
  intros Hlo. revert n w. induction fuel as [|fuel IH]; intros n w H; cbn [pad_loop];
    [exact H|].
  destruct (0 <? n) eqn:E; [|exact H].
  apply IH. apply put_bits_WB; auto. lia.
Qed.

Lemma flush_bits_WB L w : WB 65536 L w -> WB 65536 L (flush_bits w).
Proof.
  intros H. unfold flush_bits. cbv zeta. apply ac_terminate_WB.
  apply accu_flush_spec. apply pad_loop_WB; [lia|exact H].
Qed.

Lemma w_setup_WB buf : bytes buf -> WB 65536 (zlen buf) (w_setup buf).
Proof.
  intros Hb. pose proof (zlen_nonneg buf). unfold w_setup.
  constructor; wproj; auto; lia.
Qed.

(** ** Sequences of operations *)

Inductive wop :=
| PutBits (v n : Z)
| PutSym (m : model) (s : Z).

Definition wop_ok (o : wop) : Prop :=
  match o with
  | PutBits _ n => 1 <= n <= 32
  | PutSym m s => ok_sym m s
  end.

Definition wstep (w : wst) (o : wop) : wst :=
  match o with
  | PutBits v n => put_bits w v n
  | PutSym m s => put_symbol w m s
  end.

Lemma wstep_WB L w o : wop_ok o -> WB 65536 L w ->
  WB 65536 L (wstep w o) /\
  (w_bits_left (wstep w o) <= w_bits_left w \/ w_bits_left (wstep w o) < 0).
Proof.
  destruct o as [v n|m s]; cbn [wop_ok wstep]; intros Ho H.
  - destruct (put_bits_WB _ _ w v n Ho H ltac:(lia)) as (H1 & _ & _ & H2 & _).
    split; [exact H1|]. lia.
  - destruct (put_symbol_WB _ _ _ _ Ho H) as (H1 & _ & H2). split; assumption.
Qed.

Lemma wsteps_WB L ops w : Forall wop_ok ops -> WB 65536 L w ->
  WB 65536 L (fold_left wstep ops w) /\
  (0 <= w_bits_left (fold_left wstep ops w) ->
   w_bits_left (fold_left wstep ops w) <= w_bits_left w).
Proof.
  intros Ho. revert w. induction Ho as [|o ops Ho Hos IH]; intros w H; cbn [fold_left].
  - split; [exact H|]. lia.
  - destruct (wstep_WB _ _ _ Ho H) as (H1 & B1). destruct (IH _ H1) as (H2 & B2).
    split; [exact H2|]. lia.
Qed.

(** Everything written, overflowing or not, stays inside of the buffer. *)
Lemma writer_in_frame ops buf :
  bytes buf -> Forall wop_ok ops ->
  let w := flush_bits (fold_left wstep ops (w_setup buf)) in
  w_oob w = false /\ w_ub w = false /\ w_stuck w = false /\
  zlen (w_buf w) = zlen buf /\ bytes (w_buf w).
Proof.
  intros Hb Ho. destruct (wsteps_WB _ _ _ Ho (w_setup_WB buf Hb)) as (H & _).
  apply flush_bits_WB in H. cbv zeta. destruct H. auto.
Qed.
