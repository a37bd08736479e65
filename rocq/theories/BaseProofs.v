(** * Lemmas on the common definitions *)
From Coq Require Import ZArith List Bool Lia ZifyBool.
From Verif Require Import Base.
Import ListNotations.
Local Open Scope Z_scope.

(** ** Bit operations as arithmetic *)

Lemma land_mask x n : 0 <= n -> Z.land x (2 ^ n - 1) = x mod 2 ^ n.
Proof.
  intros H. rewrite <- Z.land_ones by lia. f_equal. rewrite Z.ones_equiv. lia.
Qed.

Lemma land_255 x : Z.land x 255 = x mod 256.
Proof. exact (land_mask x 8 ltac:(lia)). Qed.
Lemma land_24 x : Z.land x (2 ^ 24 - 1) = x mod 2 ^ 24.
Proof. apply land_mask. lia. Qed.
Lemma land_65535 x : Z.land x 65535 = x mod 65536.
Proof. exact (land_mask x 16 ltac:(lia)). Qed.

Lemma land_disjoint a b n : 0 <= n -> 0 <= a < 2 ^ n -> Z.land a (b * 2 ^ n) = 0.
Proof.
  intros Hn Ha. apply Z.bits_inj'. intros i Hi.
  rewrite Z.land_spec, Z.bits_0.
  destruct (Z.lt_ge_cases i n) as [Hl|Hl].
  - rewrite Z.mul_pow2_bits_low by lia. apply andb_false_r.
  - replace (Z.testbit a i) with false; [reflexivity|]. symmetry.
    destruct (Z.eq_dec a 0) as [->|Hz]; [apply Z.bits_0|].
    apply Z.bits_above_log2; [lia|].
    assert (Z.log2 a < n) by (apply Z.log2_lt_pow2; lia). lia.
Qed.

Lemma lor_add a b n :
  0 <= n -> 0 <= a < 2 ^ n -> Z.lor a (b * 2 ^ n) = a + b * 2 ^ n.
Proof.
  intros Hn Ha. pose proof (land_disjoint a b n Hn Ha) as H.
  rewrite <- Z.lxor_lor by exact H. symmetry. apply Z.add_nocarry_lxor. exact H.
Qed.

Lemma ldiff_mask x n : 0 <= n -> Z.ldiff x (2 ^ n - 1) = x / 2 ^ n * 2 ^ n.
Proof.
  intros H. replace (2 ^ n - 1) with (Z.ones n) by (rewrite Z.ones_equiv; lia).
  rewrite Z.ldiff_ones_r by lia.
  rewrite Z.shiftl_mul_pow2, Z.shiftr_div_pow2 by lia. reflexivity.
Qed.

Lemma pow2_pos n : 0 <= n -> 0 < 2 ^ n.
Proof. intros H. apply Z.pow_pos_nonneg; lia. Qed.

Lemma pow256 n : 0 <= n -> 256 ^ n = 2 ^ (8 * n).
Proof. intros H. rewrite Z.pow_mul_r by lia. reflexivity. Qed.

(** ** Lists with [Z] indexes *)

Lemma zlen_nonneg {A} (l : list A) : 0 <= zlen l.
Proof. unfold zlen. lia. Qed.
Lemma zlen_nil {A} : zlen (@nil A) = 0.
Proof. reflexivity. Qed.
Lemma zlen_cons {A} (a : A) l : zlen (a :: l) = 1 + zlen l.
Proof. unfold zlen. cbn [length]. lia. Qed.
Lemma zlen_app {A} (l m : list A) : zlen (l ++ m) = zlen l + zlen m.
Proof. unfold zlen. rewrite app_length. lia. Qed.
Lemma zlen_repeat {A} (a : A) n : zlen (repeat a n) = Z.of_nat n.
Proof. unfold zlen. rewrite repeat_length. reflexivity. Qed.
Lemma zlen_map {A B} (f : A -> B) l : zlen (map f l) = zlen l.
Proof. unfold zlen. rewrite map_length. reflexivity. Qed.

Lemma znth_app_l {A} (l m : list A) i d :
  i < zlen l -> znth (l ++ m) i d = znth l i d.
Proof.
  intros H. unfold znth, zlen in *. destruct (i <? 0) eqn:E; [reflexivity|].
  apply app_nth1. lia.
Qed.
Lemma znth_app_r {A} (l m : list A) i d :
  zlen l <= i -> znth (l ++ m) i d = znth m (i - zlen l) d.
Proof.
  intros H. pose proof (zlen_nonneg l). unfold znth, zlen in *.
  destruct (i <? 0) eqn:E; [lia|].
  replace (i - Z.of_nat (length l) <? 0) with false by lia.
  rewrite app_nth2 by lia. f_equal. lia.
Qed.
Lemma znth_0 {A} (a : A) l d : znth (a :: l) 0 d = a.
Proof. reflexivity. Qed.
Lemma znth_cons {A} (a : A) l i d : 0 < i -> znth (a :: l) i d = znth l (i - 1) d.
Proof.
  intros H. unfold znth. replace (i <? 0) with false by lia.
  replace (i - 1 <? 0) with false by lia.
  replace (Z.to_nat i) with (S (Z.to_nat (i - 1))) by lia. reflexivity.
Qed.
Lemma znth_mid {A} (l m : list A) a d : znth (l ++ a :: m) (zlen l) d = a.
Proof. rewrite znth_app_r by lia. rewrite Z.sub_diag. reflexivity. Qed.
Lemma znth_over {A} (l : list A) i d : zlen l <= i -> znth l i d = d.
Proof.
  intros H. unfold znth, zlen in *. destruct (i <? 0); [reflexivity|].
  apply nth_overflow. lia.
Qed.

Lemma znth_Forall {A} (P : A -> Prop) l i d :
  Forall P l -> P d -> P (znth l i d).
Proof.
  intros Hf Hd. unfold znth. destruct (i <? 0); [exact Hd|].
  destruct (Nat.lt_ge_cases (Z.to_nat i) (length l)) as [H|H].
  - rewrite Forall_forall in Hf. apply Hf. apply nth_In. exact H.
  - rewrite nth_overflow by lia. exact Hd.
Qed.

Lemma znth_bytes l i : bytes l -> 0 <= znth l i 0 < 256.
Proof. intros H. apply (znth_Forall (fun b => 0 <= b < 256)); [exact H|lia]. Qed.

Lemma upd_nat_length {A} (l : list A) i v : length (upd_nat l i v) = length l.
Proof.
  revert i. induction l as [|a l IH]; intros i; [reflexivity|].
  destruct i; cbn [upd_nat length]; [reflexivity|]. rewrite IH. reflexivity.
Qed.
Lemma zlen_upd {A} (l : list A) i v : zlen (upd l i v) = zlen l.
Proof.
  unfold upd, zlen. destruct (i <? 0); [reflexivity|].
  rewrite upd_nat_length. reflexivity.
Qed.

Lemma upd_mid {A} (l m : list A) a v : upd (l ++ a :: m) (zlen l) v = l ++ v :: m.
Proof.
  unfold upd, zlen. replace (Z.of_nat (length l) <? 0) with false by lia.
  rewrite Nat2Z.id. induction l as [|b l IH]; [reflexivity|].
  cbn [length app upd_nat]. rewrite IH. reflexivity.
Qed.

Lemma upd_nat_Forall {A} (P : A -> Prop) l i v :
  Forall P l -> P v -> Forall P (upd_nat l i v).
Proof.
  intros Hf Hv. revert i. induction Hf as [|a l Ha Hf IH]; intros i; [constructor|].
  destruct i; cbn [upd_nat]; constructor; auto.
Qed.
Lemma upd_Forall {A} (P : A -> Prop) l i v :
  Forall P l -> P v -> Forall P (upd l i v).
Proof. intros. unfold upd. destruct (i <? 0); [assumption|]. apply upd_nat_Forall; auto. Qed.

Lemma znth_upd_same {A} (l : list A) i v d :
  0 <= i < zlen l -> znth (upd l i v) i d = v.
Proof.
  unfold znth, upd, zlen. intros H. replace (i <? 0) with false by lia.
  assert (Hi : (Z.to_nat i < length l)%nat) by lia. clear H.
  revert Hi. generalize (Z.to_nat i). clear i.
  induction l as [|a l IH]; cbn [length]; intros n Hn; [lia|].
  destruct n; [reflexivity|]. cbn [upd_nat nth]. apply IH. lia.
Qed.
Lemma znth_upd_other {A} (l : list A) i j v d :
  i <> j -> znth (upd l i v) j d = znth l j d.
Proof.
  unfold znth, upd. intros H. destruct (j <? 0) eqn:Ej; [reflexivity|].
  destruct (i <? 0) eqn:Ei; [reflexivity|].
  assert (Hn : Z.to_nat i <> Z.to_nat j) by lia. clear H Ei Ej.
  revert Hn. generalize (Z.to_nat i) (Z.to_nat j). clear i j.
  induction l as [|a l IH]; intros n m Hn; [destruct n; reflexivity|].
  destruct n, m; cbn [upd_nat nth]; try reflexivity; [lia|]. apply IH. lia.
Qed.

Lemma znth_indep {A} (l : list A) i d d' :
  0 <= i < zlen l -> znth l i d = znth l i d'.
Proof.
  unfold znth, zlen. intros H. destruct (i <? 0) eqn:E; [lia|].
  apply nth_indep. lia.
Qed.

(** Splitting a list at an index. *)
Lemma split_at {A} (l : list A) n :
  0 <= n <= zlen l -> exists l1 l2, l = l1 ++ l2 /\ zlen l1 = n.
Proof.
  intros H. exists (firstn (Z.to_nat n) l), (skipn (Z.to_nat n) l).
  split; [symmetry; apply firstn_skipn|].
  unfold zlen in *. rewrite firstn_length. lia.
Qed.

Lemma split_last {A} (l : list A) n :
  0 <= n <= zlen l -> exists l1 l2, l = l1 ++ l2 /\ zlen l2 = n.
Proof.
  intros H. destruct (split_at l (zlen l - n)) as (l1 & l2 & E & Hl); [lia|].
  exists l1, l2. split; [exact E|]. rewrite E, zlen_app in *. lia.
Qed.

Lemma zlen_0 {A} (l : list A) : zlen l = 0 -> l = [].
Proof. destruct l; [reflexivity|]. rewrite zlen_cons. pose proof (zlen_nonneg l). lia. Qed.

(** ** Big-endian values *)

Lemma bval_acc l a :
  fold_left (fun a b => a * 256 + b) l a = a * 256 ^ zlen l + bval l.
Proof.
  unfold bval. revert a. induction l as [|b l IH]; intros a.
  - cbn [fold_left]. rewrite zlen_nil. lia.
  - cbn [fold_left]. rewrite IH, (IH (0 * 256 + b)).
    rewrite zlen_cons. rewrite Z.pow_add_r by (pose proof (zlen_nonneg l); lia).
    rewrite Z.pow_1_r. ring.
Qed.
Lemma bval_nil : bval [] = 0.
Proof. reflexivity. Qed.
Lemma bval_cons b l : bval (b :: l) = b * 256 ^ zlen l + bval l.
Proof. unfold bval at 1. cbn [fold_left]. rewrite bval_acc. lia. Qed.
Lemma bval_app l m : bval (l ++ m) = bval l * 256 ^ zlen m + bval m.
Proof. unfold bval at 1. rewrite fold_left_app. rewrite bval_acc. reflexivity. Qed.
Lemma bval_snoc l b : bval (l ++ [b]) = bval l * 256 + b.
Proof. rewrite bval_app, bval_cons, bval_nil, zlen_cons, zlen_nil. cbn. lia. Qed.

Lemma bval_bound l : bytes l -> 0 <= bval l < 256 ^ zlen l.
Proof.
  induction 1 as [|b l Hb Hl IH].
  - cbn. lia.
  - rewrite bval_cons, zlen_cons.
    rewrite Z.pow_add_r by (pose proof (zlen_nonneg l); lia).
    rewrite Z.pow_1_r. nia.
Qed.

Lemma bval_repeat255 n : bval (repeat 255 n) = 256 ^ Z.of_nat n - 1.
Proof.
  induction n as [|n IH]; [reflexivity|].
  cbn [repeat]. rewrite bval_cons, IH, zlen_repeat, Nat2Z.inj_succ.
  rewrite Z.pow_succ_r; lia.
Qed.
Lemma bval_repeat0 n : bval (repeat 0 n) = 0.
Proof.
  induction n as [|n IH]; [reflexivity|]. cbn [repeat]. rewrite bval_cons, IH. lia.
Qed.

Lemma bytes_app l m : bytes (l ++ m) <-> bytes l /\ bytes m.
Proof. unfold bytes. rewrite Forall_app. tauto. Qed.
Lemma bytes_cons b l : bytes (b :: l) <-> 0 <= b < 256 /\ bytes l.
Proof. unfold bytes. rewrite Forall_cons_iff. tauto. Qed.
Lemma bytes_nil : bytes [].
Proof. constructor. Qed.
Lemma bytes_repeat b n : 0 <= b < 256 -> bytes (repeat b n).
Proof. intros H. unfold bytes. apply Forall_forall. intros x Hx. apply repeat_spec in Hx. lia. Qed.

(** A digit of the value. *)
Lemma bval_digit l i :
  bytes l -> 0 <= i < zlen l ->
  znth l i 0 = bval l / 256 ^ (zlen l - 1 - i) mod 256.
Proof.
  intros Hb Hi. destruct (split_at l i) as (l1 & l2 & -> & H1); [lia|].
  rewrite zlen_app in Hi.
  destruct l2 as [|b l2]; [change (zlen (@nil Z)) with 0 in Hi; lia|].
  rewrite <- H1, znth_mid. rewrite zlen_app, zlen_cons.
  replace (zlen l1 + (1 + zlen l2) - 1 - zlen l1) with (zlen l2) by lia.
  replace (l1 ++ b :: l2) with ((l1 ++ [b]) ++ l2) by (rewrite <- app_assoc; reflexivity).
  rewrite bval_app, bval_snoc.
  apply bytes_app in Hb. destruct Hb as [Hb1 Hb2].
  apply bytes_cons in Hb2. destruct Hb2 as [Hb Hb2].
  pose proof (bval_bound _ Hb2) as Hv.
  rewrite Z.div_add_l by (pose proof (zlen_nonneg l2); apply Z.pow_nonzero; lia).
  rewrite (Z.div_small (bval l2)) by lia.
  rewrite Z.add_0_r. rewrite Z.add_comm, Z_mod_plus_full. rewrite Z.mod_small; lia.
Qed.

Lemma bval_inj l m :
  bytes l -> bytes m -> zlen l = zlen m -> bval l = bval m -> l = m.
Proof.
  intros Hl. revert m. induction Hl as [|a l Ha Hl IH]; intros m Hm Hlen Hv.
  - symmetry. apply zlen_0. rewrite <- Hlen. reflexivity.
  - destruct m as [|b m].
    { rewrite zlen_cons, zlen_nil in Hlen. pose proof (zlen_nonneg l). lia. }
    rewrite !zlen_cons in Hlen. rewrite !bval_cons in Hv.
    apply bytes_cons in Hm. destruct Hm as [Hb Hm].
    assert (E : zlen l = zlen m) by lia.
    pose proof (bval_bound _ Hl) as B1. pose proof (bval_bound _ Hm) as B2.
    rewrite E in B1, Hv.
    assert (a = b) by nia. subst b.
    f_equal. apply IH; auto. lia.
Qed.

Lemma mod_mod_pow x a b : 0 <= b <= a -> (x mod 2 ^ a) mod 2 ^ b = x mod 2 ^ b.
Proof.
  intros H. replace a with (b + (a - b)) by lia.
  rewrite Z.pow_add_r by lia.
  rewrite Z.rem_mul_r by (try apply Z.pow_nonzero; try apply pow2_pos; lia).
  rewrite Z.mul_comm, Z_mod_plus_full. apply Z.mod_mod. apply Z.pow_nonzero; lia.
Qed.

Lemma div_mod_pow x a b :
  0 <= b <= a -> (x mod 2 ^ a) / 2 ^ b = (x / 2 ^ b) mod 2 ^ (a - b).
Proof.
  intros H. replace a with (b + (a - b)) at 1 by lia.
  rewrite Z.pow_add_r by lia.
  rewrite Z.rem_mul_r by (try apply Z.pow_nonzero; try apply pow2_pos; lia).
  rewrite Z.add_comm, Z.mul_comm, Z.div_add_l by (apply Z.pow_nonzero; lia).
  rewrite (Z.div_small (x mod 2 ^ b)); [lia|].
  apply Z.mod_pos_bound. apply pow2_pos. lia.
Qed.

Lemma div_div_pow x a b : 0 <= a -> 0 <= b -> x / 2 ^ a / 2 ^ b = x / 2 ^ (a + b).
Proof.
  intros Ha Hb. rewrite Z.div_div by (try apply Z.pow_nonzero; try apply pow2_pos; lia).
  rewrite Z.pow_add_r by lia. reflexivity.
Qed.

(** Range of bits. *)
Lemma u32_small x : 0 <= x < 2 ^ 32 -> u32 x = x.
Proof. intros H. apply Z.mod_small. exact H. Qed.
Lemma u8_small x : 0 <= x < 256 -> u8 x = x.
Proof. intros H. apply Z.mod_small. exact H. Qed.
Lemma u32_range x : 0 <= u32 x < 2 ^ 32.
Proof. apply Z.mod_pos_bound. lia. Qed.
Lemma u8_range x : 0 <= u8 x < 256.
Proof. apply (Z.mod_pos_bound x (2 ^ 8)). lia. Qed.

Lemma b2z_range b : 0 <= b2z b <= 1.
Proof. destruct b; cbn; lia. Qed.
