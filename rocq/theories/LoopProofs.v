(** * Loops and arrays of [FloatOps] *)
From Coq Require Import ZArith List Bool Lia ZifyBool.
From Verif Require Import Base BaseProofs ConfigModel FloatOps.
Import ListNotations.
Local Open Scope Z_scope.

Lemma rd_ok {A} (l : list A) i : 0 <= i < zlen l -> exists v, rd l i = Some v.
Proof.
  intros H. unfold rd, zlen in *. destruct (i <? 0) eqn:E; [lia|]. destruct (nth_error l (Z.to_nat i)) eqn:N; [eauto|].
  apply nth_error_None in N. lia.
Qed.

Lemma rd_range {A} (l : list A) i v : rd l i = Some v -> 0 <= i < zlen l.
Proof.
  unfold rd, zlen. destruct (i <? 0) eqn:E; [discriminate|]. intros H.
  assert (nth_error l (Z.to_nat i) <> None) by congruence. apply nth_error_Some in H0. lia.
Qed.

Lemma rd_In {A} (l : list A) i v : rd l i = Some v -> In v l.
Proof. unfold rd. destruct (i <? 0); [discriminate|]. apply nth_error_In. Qed.

Lemma rd_nth {A} (l : list A) i d : 0 <= i < zlen l -> rd l i = Some (nth (Z.to_nat i) l d).
Proof.
  intros H. unfold rd, zlen in *. destruct (i <? 0) eqn:E; [lia|]. apply nth_error_nth'. lia.
Qed.

Lemma wr_ok {A} (l : list A) i v : 0 <= i < zlen l -> wr l i v = Some (upd l i v).
Proof. intros H. unfold wr, inb. destruct ((0 <=? i) && (i <? zlen l)) eqn:E; [reflexivity|lia]. Qed.

Lemma wr_inv {A} (l : list A) i v l' : wr l i v = Some l' -> 0 <= i < zlen l /\ l' = upd l i v.
Proof. unfold wr, inb. destruct ((0 <=? i) && (i <? zlen l)) eqn:E; [|discriminate]. intros [= <-]. split; [lia|reflexivity]. Qed.

Lemma upd_nat_len {A} (l : list A) i v : length (upd_nat l i v) = length l.
Proof. revert i. induction l; intros [|i]; cbn [upd_nat length]; auto. Qed.
Lemma upd_len {A} (l : list A) i v : zlen (upd l i v) = zlen l.
Proof. unfold upd, zlen. destruct (i <? 0); [reflexivity|]. rewrite upd_nat_len. reflexivity. Qed.

Lemma nth_error_upd_nat {A} (l : list A) i v j :
  nth_error (upd_nat l i v) j = if Nat.eqb i j then match nth_error l j with Some _ => Some v | None => None end else nth_error l j.
Proof.
  revert i j. induction l; intros [|i] [|j]; cbn [upd_nat nth_error Nat.eqb]; try reflexivity.
  - destruct (Nat.eqb i j); reflexivity.
  - apply IHl.
Qed.

Lemma rd_upd {A} (l : list A) i v j : 0 <= i < zlen l -> rd (upd l i v) j = if i =? j then Some v else rd l j.
Proof.
  intros H. unfold rd, upd, zlen in *. destruct (j <? 0) eqn:J.
  - destruct (i =? j) eqn:E; [lia|reflexivity].
  - destruct (i <? 0) eqn:I; [lia|]. rewrite nth_error_upd_nat.
    destruct (Nat.eqb (Z.to_nat i) (Z.to_nat j)) eqn:E; destruct (i =? j) eqn:E'.
    + destruct (nth_error l (Z.to_nat j)) eqn:N; [reflexivity|]. apply nth_error_None in N. lia.
    + apply Nat.eqb_eq in E. lia.
    + apply Nat.eqb_neq in E. lia.
    + reflexivity.
Qed.

Lemma nth_error_same {A} (l l' : list A) : (forall i, nth_error l i = nth_error l' i) -> l = l'.
Proof.
  revert l'. induction l as [|v l IH]; intros [|v' l'] H; [reflexivity|specialize (H 0%nat); discriminate|specialize (H 0%nat); discriminate|].
  pose proof (H 0%nat) as H0. cbn in H0. injection H0 as ->. f_equal. apply IH. intros i. exact (H (Datatypes.S i)).
Qed.

Lemma rd_ext {A} (l l' : list A) : zlen l = zlen l' -> (forall i, 0 <= i < zlen l -> rd l i = rd l' i) -> l = l'.
Proof.
  intros L H. apply (nth_error_same l l'). intros i. specialize (H (Z.of_nat i)). unfold rd, zlen in *.
  destruct (Z.of_nat i <? 0) eqn:E; [lia|]. rewrite Nat2Z.id in H.
  destruct (Nat.lt_ge_cases i (length l)) as [K|K].
  - apply H. lia.
  - rewrite (proj2 (nth_error_None l i)) by lia. rewrite (proj2 (nth_error_None l' i)) by lia. reflexivity.
Qed.

Lemma zlen_repeat {A} (v : A) n : zlen (repeat v n) = Z.of_nat n.
Proof. unfold zlen. rewrite repeat_length. reflexivity. Qed.

Lemma rd_repeat {A} (v : A) n i : 0 <= i < Z.of_nat n -> rd (repeat v n) i = Some v.
Proof.
  intros H. rewrite (rd_nth _ _ v) by (rewrite zlen_repeat; lia). f_equal. apply nth_repeat.
Qed.

(** Invariant of a loop. *)
Lemma loop_inv {S} (I : Z -> S -> Prop) f n : forall a s,
  I a s -> (forall i s, a <= i < a + Z.of_nat n -> I i s -> exists s', f i s = Some s' /\ I (i + 1) s') ->
  exists s', loop n f a s = Some s' /\ I (a + Z.of_nat n) s'.
Proof.
  induction n as [|n IH]; intros a s H0 H.
  - exists s. split; [reflexivity|]. replace (a + Z.of_nat 0) with a by lia. exact H0.
  - destruct (H a s ltac:(lia) H0) as (s1 & E1 & H1). destruct (IH (a + 1) s1 H1) as (s2 & E2 & H2).
    + intros i s' Hi. apply H. lia.
    + exists s2. cbn [loop]. rewrite E1. cbn [bind]. split; [exact E2|].
      replace (a + Z.of_nat (Datatypes.S n)) with (a + 1 + Z.of_nat n) by lia. exact H2.
Qed.

Lemma for_inv {S} (I : Z -> S -> Prop) f a b s :
  a <= b -> I a s -> (forall i s, a <= i < b -> I i s -> exists s', f i s = Some s' /\ I (i + 1) s') ->
  exists s', for_ a b f s = Some s' /\ I b s'.
Proof.
  intros Hab H0 H. destruct (loop_inv I f (Z.to_nat (b - a)) a s H0) as (s' & E & H').
  - intros i s' Hi. apply H. lia.
  - exists s'. split; [exact E|]. replace b with (a + Z.of_nat (Z.to_nat (b - a))) by lia. exact H'.
Qed.

Lemma down_inv {S} (I : Z -> S -> Prop) f n : forall a s,
  I a s -> (forall i s, a - Z.of_nat n < i <= a -> I i s -> exists s', f i s = Some s' /\ I (i - 1) s') ->
  exists s', down n f a s = Some s' /\ I (a - Z.of_nat n) s'.
Proof.
  induction n as [|n IH]; intros a s H0 H.
  - exists s. split; [reflexivity|]. replace (a - Z.of_nat 0) with a by lia. exact H0.
  - destruct (H a s ltac:(lia) H0) as (s1 & E1 & H1). destruct (IH (a - 1) s1 H1) as (s2 & E2 & H2).
    + intros i s' Hi. apply H. lia.
    + exists s2. cbn [down]. rewrite E1. cbn [bind]. split; [exact E2|].
      replace (a - Z.of_nat (Datatypes.S n)) with (a - 1 - Z.of_nat n) by lia. exact H2.
Qed.

(** The state [I i] is before the iteration [i], [I (b - 1)] at the end. *)
Lemma for_down_inv {S} (I : Z -> S -> Prop) f a b s :
  b - 1 <= a -> I a s -> (forall i s, b <= i <= a -> I i s -> exists s', f i s = Some s' /\ I (i - 1) s') ->
  exists s', for_down a b f s = Some s' /\ I (b - 1) s'.
Proof.
  intros Hab H0 H. destruct (down_inv I f (Z.to_nat (a - b + 1)) a s H0) as (s' & E & H').
  - intros i s' Hi. apply H. lia.
  - exists s'. split; [exact E|]. replace (b - 1) with (a - Z.of_nat (Z.to_nat (a - b + 1))) by lia. exact H'.
Qed.

(** Two runs side by side. *)
Lemma loop_inv2 {S T} (I : Z -> S -> T -> Prop) f g n : forall a s t,
  I a s t ->
  (forall i s t, a <= i < a + Z.of_nat n -> I i s t -> exists s' t', f i s = Some s' /\ g i t = Some t' /\ I (i + 1) s' t') ->
  exists s' t', loop n f a s = Some s' /\ loop n g a t = Some t' /\ I (a + Z.of_nat n) s' t'.
Proof.
  induction n as [|n IH]; intros a s t H0 H.
  - exists s, t. repeat split; try reflexivity. replace (a + Z.of_nat 0) with a by lia. exact H0.
  - destruct (H a s t ltac:(lia) H0) as (s1 & t1 & E1 & F1 & H1). destruct (IH (a + 1) s1 t1 H1) as (s2 & t2 & E2 & F2 & H2).
    + intros i s' t' Hi. apply H. lia.
    + exists s2, t2. cbn [loop]. rewrite E1, F1. cbn [bind]. repeat split; [exact E2|exact F2|].
      replace (a + Z.of_nat (Datatypes.S n)) with (a + 1 + Z.of_nat n) by lia. exact H2.
Qed.

Lemma for_inv2 {S T} (I : Z -> S -> T -> Prop) f g a b s t :
  a <= b -> I a s t ->
  (forall i s t, a <= i < b -> I i s t -> exists s' t', f i s = Some s' /\ g i t = Some t' /\ I (i + 1) s' t') ->
  exists s' t', for_ a b f s = Some s' /\ for_ a b g t = Some t' /\ I b s' t'.
Proof.
  intros Hab H0 H. destruct (loop_inv2 I f g (Z.to_nat (b - a)) a s t H0) as (s' & t' & E & E' & H').
  - intros i s' t' Hi. apply H. lia.
  - exists s', t'. split; [exact E|]. split; [exact E'|]. replace b with (a + Z.of_nat (Z.to_nat (b - a))) by lia. exact H'.
Qed.

Lemma down_inv2 {S T} (I : Z -> S -> T -> Prop) f g n : forall a s t,
  I a s t ->
  (forall i s t, a - Z.of_nat n < i <= a -> I i s t -> exists s' t', f i s = Some s' /\ g i t = Some t' /\ I (i - 1) s' t') ->
  exists s' t', down n f a s = Some s' /\ down n g a t = Some t' /\ I (a - Z.of_nat n) s' t'.
Proof.
  induction n as [|n IH]; intros a s t H0 H.
  - exists s, t. repeat split; try reflexivity. replace (a - Z.of_nat 0) with a by lia. exact H0.
  - destruct (H a s t ltac:(lia) H0) as (s1 & t1 & E1 & F1 & H1). destruct (IH (a - 1) s1 t1 H1) as (s2 & t2 & E2 & F2 & H2).
    + intros i s' t' Hi. apply H. lia.
    + exists s2, t2. cbn [down]. rewrite E1, F1. cbn [bind]. repeat split; [exact E2|exact F2|].
      replace (a - Z.of_nat (Datatypes.S n)) with (a - 1 - Z.of_nat n) by lia. exact H2.
Qed.

Lemma for_down_inv2 {S T} (I : Z -> S -> T -> Prop) f g a b s t :
  b - 1 <= a -> I a s t ->
  (forall i s t, b <= i <= a -> I i s t -> exists s' t', f i s = Some s' /\ g i t = Some t' /\ I (i - 1) s' t') ->
  exists s' t', for_down a b f s = Some s' /\ for_down a b g t = Some t' /\ I (b - 1) s' t'.
Proof.
  intros Hab H0 H. destruct (down_inv2 I f g (Z.to_nat (a - b + 1)) a s t H0) as (s' & t' & E & E' & H').
  - intros i s' t' Hi. apply H. lia.
  - exists s', t'. split; [exact E|]. split; [exact E'|]. replace (b - 1) with (a - Z.of_nat (Z.to_nat (a - b + 1))) by lia. exact H'.
Qed.

(** ** Arrays that agree on the indexes [lo <= i < hi] *)
Definition agree {A} (lo hi : Z) (l l' : list A) : Prop :=
  zlen l = zlen l' /\ forall i, lo <= i < hi -> rd l i = rd l' i.

Lemma agree_refl {A} lo hi (l : list A) : agree lo hi l l.
Proof. split; auto. Qed.

Lemma agree_sub {A} lo hi lo' hi' (l l' : list A) : lo <= lo' -> hi' <= hi -> agree lo hi l l' -> agree lo' hi' l l'.
Proof. intros H1 H2 [L H]. split; [exact L|]. intros i Hi. apply H. lia. Qed.

Lemma agree_rd {A} lo hi (l l' : list A) i : agree lo hi l l' -> lo <= i < hi -> 0 <= i < zlen l -> exists v, rd l i = Some v /\ rd l' i = Some v.
Proof. intros [L H] Hi Hl. destruct (rd_ok l i Hl) as (v & E). exists v. split; [exact E|]. rewrite <- (H i Hi). exact E. Qed.

Lemma agree_upd {A} lo i (l l' : list A) v : agree lo i l l' -> 0 <= i < zlen l -> agree lo (i + 1) (upd l i v) (upd l' i v).
Proof.
  intros [L H] Hi. split; [rewrite !upd_len; exact L|]. intros j Hj. rewrite !rd_upd by lia.
  destruct (i =? j) eqn:E; [reflexivity|]. apply H. lia.
Qed.

Lemma agree_upd_down {A} i hi (l l' : list A) v : agree (i + 1) hi l l' -> 0 <= i < zlen l -> agree i hi (upd l i v) (upd l' i v).
Proof.
  intros [L H] Hi. split; [rewrite !upd_len; exact L|]. intros j Hj. rewrite !rd_upd by lia.
  destruct (i =? j) eqn:E; [reflexivity|]. apply H. lia.
Qed.

Lemma agree_upd_in {A} lo hi i (l l' : list A) v : agree lo hi l l' -> 0 <= i < zlen l -> agree lo hi (upd l i v) (upd l' i v).
Proof.
  intros [L H] Hi. split; [rewrite !upd_len; exact L|]. intros j Hj. rewrite !rd_upd by lia.
  destruct (i =? j) eqn:E; [reflexivity|]. apply H. lia.
Qed.

Lemma agree_all {A} (l l' : list A) : agree 0 (zlen l) l l' -> l = l'.
Proof. intros [L H]. apply rd_ext; auto. Qed.

(** Partial correctness. *)
Lemma loop_post {S} (P : Z -> S -> Prop) (g : Z -> S -> option S) n : forall i s s',
  (forall j t t', i <= j < i + Z.of_nat n -> P j t -> g j t = Some t' -> P (j + 1) t') -> P i s -> loop n g i s = Some s' -> P (i + Z.of_nat n) s'.
Proof.
  induction n as [|n IH]; intros i s s' H Hs; cbn [loop]; [intros [= <-]; rewrite Z.add_0_r; exact Hs|].
  destruct (g i s) as [t|] eqn:E; [|discriminate]. cbn [bind]. intros E2. replace (i + Z.of_nat (Datatypes.S n)) with (i + 1 + Z.of_nat n) by lia.
  eapply IH; [| |exact E2]; [intros j u u' Hj; apply H; lia|]. eapply H; [lia|exact Hs|exact E].
Qed.
Lemma for_post {S} (P : Z -> S -> Prop) (g : Z -> S -> option S) a b s s' : a <= b ->
  (forall j t t', a <= j < b -> P j t -> g j t = Some t' -> P (j + 1) t') -> P a s -> for_ a b g s = Some s' -> P b s'.
Proof.
  intros Hab H Hs E. replace b with (a + Z.of_nat (Z.to_nat (b - a))) by lia. eapply loop_post; [|exact Hs|exact E]. intros j t t' Hj. apply H. lia.
Qed.
