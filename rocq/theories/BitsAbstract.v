(** * Abstract view of a frame: one integer, seen from both ends
    The arithmetic coder is an interval [B, B+R) at scale 2^(8k+24); the raw
    bits are the [pos] low-order bits, of value W. *)
From Coq Require Import ZArith List Bool Lia ZifyBool.
From Verif Require Import Base BaseProofs BitsModel BitsWriteSafe.
Import ListNotations.
Local Open Scope Z_scope.

Record ast := mkA { a_B : Z; a_R : Z; a_k : Z; a_pos : Z; a_W : Z }.

Definition a_init : ast := mkA 0 (2 ^ 24 - 1) 0 0 0.

(** Number of renormalisation rounds for a range [R]. *)
Definition jshift (R : Z) : Z :=
  if R <? 256 then 2 else if R <? 65536 then 1 else 0.

Definition a_bits (a : ast) (v n : Z) : ast :=
  mkA (a_B a) (a_R a) (a_k a) (a_pos a + n) (a_W a + v * 2 ^ a_pos a).

Definition a_sym (a : ast) (m : model) (s : Z) : ast :=
  let r := a_R a / 1024 in
  let R1 := r * sym_range m s in
  let j := jshift R1 in
  mkA ((a_B a + r * sym_low m s) * 256 ^ j) (R1 * 256 ^ j) (a_k a + j)
      (a_pos a) (a_W a).

Definition astep (a : ast) (o : wop) : ast :=
  match o with
  | PutBits v n => a_bits a v n
  | PutSym m s => a_sym a m s
  end.

(** Operations with a value that fits in the announced number of bits. *)
Definition op_ok (o : wop) : Prop :=
  match o with
  | PutBits v n => 1 <= n <= 31 /\ 0 <= v < 2 ^ n
  | PutSym m s => ok_sym m s
  end.

Lemma op_wop_ok o : op_ok o -> wop_ok o.
Proof. destruct o; cbn; [lia|auto]. Qed.

(** Bits left of an abstract state. *)
Definition a_left (L : Z) (a : ast) : Z :=
  8 * L - a_pos a - 8 * a_k a - 26 + range_bits (a_R a).

(** Invariant of abstract states. *)
Definition a_ok (a : ast) : Prop :=
  65536 <= a_R a < 2 ^ 24 /\ 0 <= a_B a /\ 0 <= a_k a /\
  a_B a + a_R a <= (2 ^ 24 - 1) * 256 ^ a_k a /\
  0 <= a_pos a /\ 0 <= a_W a < 2 ^ a_pos a.

Lemma a_init_ok : a_ok a_init.
Proof. unfold a_ok, a_init. cbn. lia. Qed.

Lemma jshift_spec R : 0 < R < 2 ^ 24 ->
  0 <= jshift R <= 2 /\ 65536 <= R * 256 ^ jshift R < 2 ^ 24.
Proof.
  intros H. unfold jshift. destruct (R <? 256) eqn:E1; [|destruct (R <? 65536) eqn:E2].
  - change (256 ^ 2) with 65536. lia.
  - change (256 ^ 1) with 256. lia.
  - change (256 ^ 0) with 1. lia.
Qed.

Lemma sym_split R m s : ok_sym m s -> 65536 <= R < 2 ^ 24 ->
  let r := R / 1024 in
  64 <= r < 16384 /\ r * 1024 <= R /\ 0 <= r * sym_low m s /\
  0 < r * sym_range m s /\
  r * sym_low m s + r * sym_range m s <= r * 1024.
Proof.
  intros (Hm & Hs & Hsr) HR r.
  destruct (wf_model_bounds m s Hm Hs) as (Hlo & _ & Hhi).
  assert (64 <= r) by (apply Z.div_le_lower_bound; lia).
  assert (r < 16384) by (apply Z.div_lt_upper_bound; lia).
  pose proof (Z.mul_div_le R 1024 ltac:(lia)).
  fold r in H1. split; [lia|]. split; [lia|]. split; [nia|]. split; [nia|]. nia.
Qed.

Lemma astep_ok a o : op_ok o -> a_ok a -> a_ok (astep a o).
Proof.
  destruct o as [v n|m s]; cbn [op_ok astep]; intros Ho (HR & HB & Hk & Hb & Hp & HW).
  - destruct Ho as (Hn & Hv). unfold a_ok, a_bits. cbn [a_B a_R a_k a_pos a_W].
    split; [exact HR|]. split; [exact HB|]. split; [exact Hk|]. split; [exact Hb|].
    split; [lia|].
    rewrite Z.pow_add_r by lia. pose proof (pow2_pos (a_pos a) Hp).
    split; [nia|]. nia.
  - destruct (sym_split _ _ _ Ho HR) as (Hr1 & Hr2 & Hr3 & Hr4 & Hr5).
    unfold a_ok, a_sym. cbv zeta. cbn [a_B a_R a_k a_pos a_W].
    set (lo := a_R a / 1024 * sym_low m s) in *.
    set (R1 := a_R a / 1024 * sym_range m s) in *.
    destruct (jshift_spec R1 ltac:(lia)) as (Hj & HRj).
    assert (Hjp : 0 < 256 ^ jshift R1) by (apply Z.pow_pos_nonneg; lia).
    set (J := 256 ^ jshift R1) in *.
    split; [exact HRj|]. split; [nia|]. split; [lia|].
    split; [|split; [exact Hp|exact HW]].
    rewrite Z.pow_add_r by lia. fold J.
    replace ((a_B a + lo) * J + R1 * J) with ((a_B a + lo + R1) * J) by ring.
    rewrite Z.mul_assoc. apply Z.mul_le_mono_nonneg_r; lia.
Qed.

Lemma asteps_ok ops a : Forall op_ok ops -> a_ok a -> a_ok (fold_left astep ops a).
Proof.
  intros H. revert a. induction H as [|o ops Ho Hos IH]; intros a Ha; cbn [fold_left];
    [exact Ha|]. apply IH. apply astep_ok; assumption.
Qed.

(** ** Frames consistent with an abstract state *)

Record Fin (F L : Z) (a : ast) : Prop := mkFin {
  fin_ok : a_ok a;
  fin_F : 0 <= F < 2 ^ (8 * L);
  fin_k : a_k a <= L;
  fin_lo : a_B a * 2 ^ (8 * (L - a_k a)) <= F * 2 ^ 24;
  fin_hi : F * 2 ^ 24 < (a_B a + a_R a) * 2 ^ (8 * (L - a_k a));
  fin_pos : a_pos a <= 8 * L;
  fin_W : F mod 2 ^ a_pos a = a_W a }.

(** Going back one operation; what the frame then contains. *)
Lemma Fin_bits F L a v n :
  op_ok (PutBits v n) -> a_ok a -> Fin F L (a_bits a v n) ->
  Fin F L a /\ F / 2 ^ a_pos a mod 2 ^ n = v.
Proof.
  intros (Hn & Hv) Ha H. pose proof Ha as (HR & HB & Hk & Hb & Hp & HW).
  destruct H as [_ HF Hkl Hlo Hhi Hpos HWf].
  unfold a_bits in *. cbn [a_B a_R a_k a_pos a_W] in *.
  rewrite Z.pow_add_r in HWf by lia.
  pose proof (pow2_pos (a_pos a) Hp) as Hpp. pose proof (pow2_pos n ltac:(lia)) as Hnp.
  rewrite Z.rem_mul_r in HWf by lia.
  pose proof (Z.mod_pos_bound F (2 ^ a_pos a) Hpp) as HM.
  pose proof (Z.mod_pos_bound (F / 2 ^ a_pos a) (2 ^ n) Hnp) as HM2.
  set (P := 2 ^ a_pos a) in *.
  assert (F / P mod 2 ^ n = v) by nia.
  assert (F mod P = a_W a) by nia.
  split; [|assumption]. constructor; auto. lia.
Qed.

Lemma scale_256 L k j : 0 <= j -> k + j <= L ->
  256 ^ j * 2 ^ (8 * (L - (k + j))) = 2 ^ (8 * (L - k)).
Proof.
  intros Hj Hk. rewrite pow256 by lia. rewrite <- Z.pow_add_r by lia. f_equal. lia.
Qed.

Lemma Fin_sym F L a m s :
  op_ok (PutSym m s) -> a_ok a -> Fin F L (a_sym a m s) ->
  Fin F L a /\
  (a_B a + a_R a / 1024 * sym_low m s) * 2 ^ (8 * (L - a_k a)) <= F * 2 ^ 24 /\
  F * 2 ^ 24 < (a_B a + a_R a / 1024 * sym_low m s + a_R a / 1024 * sym_range m s)
               * 2 ^ (8 * (L - a_k a)).
Proof.
  intros Ho Ha H. pose proof Ha as (HR & HB & Hk & Hb & Hp & HW).
  destruct (sym_split _ _ _ Ho HR) as (Hr1 & Hr2 & Hr3 & Hr4 & Hr5).
  destruct H as [_ HF Hkl Hlo Hhi Hpos HWf].
  unfold a_sym in *. cbv zeta in *. cbn [a_B a_R a_k a_pos a_W] in *.
  set (lo := a_R a / 1024 * sym_low m s) in *.
  set (R1 := a_R a / 1024 * sym_range m s) in *.
  destruct (jshift_spec R1 ltac:(lia)) as (Hj & HRj).
  pose proof (scale_256 L (a_k a) (jshift R1) ltac:(lia) ltac:(lia)) as Hs.
  rewrite <- Z.mul_assoc, Hs in Hlo.
  replace ((a_B a + lo) * 256 ^ jshift R1 + R1 * 256 ^ jshift R1)
    with ((a_B a + lo + R1) * 256 ^ jshift R1) in Hhi by ring.
  rewrite <- Z.mul_assoc, Hs in Hhi.
  pose proof (pow2_pos (8 * (L - a_k a)) ltac:(lia)) as Hpk.
  set (P := 2 ^ (8 * (L - a_k a))) in *.
  split; [|split; assumption].
  constructor; auto; try lia; fold P; nia.
Qed.

Lemma Fin_step F L a o : op_ok o -> a_ok a -> Fin F L (astep a o) -> Fin F L a.
Proof.
  destruct o as [v n|m s]; cbn [astep]; intros Ho Ha H.
  - apply (Fin_bits F L a v n Ho Ha H).
  - apply (Fin_sym F L a m s Ho Ha H).
Qed.

Lemma Fin_steps F L ops a :
  Forall op_ok ops -> a_ok a -> Fin F L (fold_left astep ops a) -> Fin F L a.
Proof.
  intros Ho. revert a. induction Ho as [|o ops Ho Hos IH]; intros a Ha H; [exact H|].
  cbn [fold_left] in H. apply Fin_step with o; auto. apply IH; auto.
  apply astep_ok; assumption.
Qed.
