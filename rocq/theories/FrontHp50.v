(** * The high-pass filter of the front end on inputs of bounded amplitude
    [rows] are functionals [p * s1 + q * s2] of the state, each bounded by some [beta]: the
    output [k] steps later with no input. Each bound leaves room for the next functional and
    for one input, so that all bounds are an invariant. *)
From Coq Require Import ZArith List Bool Lia Psatz.
From Verif Require Import Base FrontModel.
Import ListNotations.
Local Open Scope Z_scope.

(** Bounds of the input, of the states and of the output. *)
Definition hp_U : Z := 889111000.
Definition hp_S1 : Z := 1418 * hp_U * 2 ^ 30 / 1000.
Definition hp_S2 : Z := 2 ^ 62.
Definition hp_Y : Z := 2134900000.

Definition B30 : Z := 2 ^ 30.

(** Functionals: [p] after each step. *)
Fixpoint rows (n : nat) (p q : Z) : list (Z * Z) :=
  match n with
  | O => []
  | S n => (p, q) :: rows n (shr (- hp_a1 * p - hp_a2 * q) 30) p
  end.

(** What an input and a rounding add to a functional, times [2^30]. *)
Definition gain_of (p q : Z) : Z :=
  hp_U * Z.abs (p * (B30 * hp_b1 - hp_a1 * hp_b2) + q * (B30 * hp_b2 - hp_a2 * hp_b2)) + B30 * Z.abs (hp_a1 * p + hp_a2 * q).

(** [v / 2^30] rounded up. *)
Definition up (v : Z) : Z := - shr (- v) 30.

Fixpoint bounds (l : list (Z * Z)) : list (Z * Z * Z) :=
  match l with
  | [] => []
  | (p, q) :: l' =>
      match bounds l' with
      | [] => [(p, q, up (Z.abs (- hp_a1 * p - hp_a2 * q) * hp_S1 + B30 * Z.abs p * hp_S2 + gain_of p q))]
      | (p', q', b') :: bs =>
          (p, q, b' + up (Z.abs (- hp_a1 * p - hp_a2 * q - B30 * p') * hp_S1 + gain_of p q)) :: (p', q', b') :: bs
      end
  end.

Definition polygon : list (Z * Z * Z) := bounds (rows 800 (2 ^ 32) 0).

Definition within (s1 s2 : Z) (r : Z * Z * Z) : Prop :=
  let '(p, q, b) := r in Z.abs (p * s1 + q * s2) <= b.

(** Invariant of the state of the filter. *)
Definition hp_inv (s : Z * Z) : Prop :=
  Z.abs (fst s) <= hp_S1 /\ Z.abs (snd s) <= hp_S2 /\ Forall (within (fst s) (snd s)) polygon.

Lemma up_le v : v <= B30 * up v.
Proof. unfold up, shr, B30. pose proof (Z.mul_div_le (- v) (2 ^ 30) ltac:(lia)). lia. Qed.

(** One functional after a step, times [2^30]: [y] is the output, [r] the rounding. *)
Lemma functional_step p q s1 s2 x y r :
  B30 * y = s1 + x * hp_b2 - r ->
  B30 * (p * (s2 + x * hp_b1 - y * hp_a1) + q * (x * hp_b2 - y * hp_a2)) =
  ((- hp_a1 * p - hp_a2 * q) * s1 + B30 * p * s2) +
  x * (p * (B30 * hp_b1 - hp_a1 * hp_b2) + q * (B30 * hp_b2 - hp_a2 * hp_b2)) + r * (hp_a1 * p + hp_a2 * q).
Proof.
  intros E.
  replace (B30 * (p * (s2 + x * hp_b1 - y * hp_a1) + q * (x * hp_b2 - y * hp_a2)))
    with (B30 * p * (s2 + x * hp_b1) + B30 * q * (x * hp_b2) - (B30 * y) * (p * hp_a1 + q * hp_a2)) by ring.
  rewrite E. ring.
Qed.

Lemma gain_le p q x r : Z.abs x <= hp_U -> 0 <= r < B30 ->
  Z.abs (x * (p * (B30 * hp_b1 - hp_a1 * hp_b2) + q * (B30 * hp_b2 - hp_a2 * hp_b2)) + r * (hp_a1 * p + hp_a2 * q)) <= gain_of p q.
Proof.
  intros Hx Hr. unfold gain_of.
  generalize (p * (B30 * hp_b1 - hp_a1 * hp_b2) + q * (B30 * hp_b2 - hp_a2 * hp_b2)) (hp_a1 * p + hp_a2 * q).
  intros X C. eapply Z.le_trans; [apply Z.abs_triangle|]. rewrite !Z.abs_mul.
  apply Z.add_le_mono; apply Z.mul_le_mono_nonneg_r; lia.
Qed.

Lemma rows_next n p q : match rows n (shr (- hp_a1 * p - hp_a2 * q) 30) p with [] => True | (_, q') :: _ => q' = p end.
Proof. destruct n; cbn; auto. Qed.

Lemma bounds_head l : match l, bounds l with
                      | (p, q) :: _, (p', q', _) :: _ => p = p' /\ q = q' | [], [] => True | _, _ => False end.
Proof. destruct l as [|[p q] l]; cbn [bounds]; [trivial|]. destruct (bounds l) as [|[[p' q'] b'] bs]; auto. Qed.

Lemma bounds_ok n : forall p q s1 s2 x y r,
  B30 * y = s1 + x * hp_b2 - r -> Z.abs x <= hp_U -> 0 <= r < B30 ->
  Z.abs s1 <= hp_S1 -> Z.abs s2 <= hp_S2 ->
  Forall (within s1 s2) (bounds (rows n p q)) ->
  Forall (within (s2 + x * hp_b1 - y * hp_a1) (x * hp_b2 - y * hp_a2)) (bounds (rows n p q)).
Proof.
  induction n as [|n IH]; intros p q s1 s2 x y r E Hx Hr H1 H2 H; [constructor|].
  cbn [rows bounds] in *.
  pose proof (rows_next n p q) as Hq. pose proof (bounds_head (rows n (shr (- hp_a1 * p - hp_a2 * q) 30) p)) as Hh.
  specialize (IH (shr (- hp_a1 * p - hp_a2 * q) 30) p).
  destruct (rows n (shr (- hp_a1 * p - hp_a2 * q) 30) p) as [|[p1 q1] l]; [|].
  - cbn [bounds] in *. constructor; [|constructor]. clear IH H.
    unfold within. pose proof (functional_step p q s1 s2 x y r E) as F. pose proof (gain_le p q x r Hx Hr) as G.
    match goal with |- _ <= up ?v => pose proof (up_le v) as Hu end.
    revert F G Hu.
    generalize (p * (s2 + x * hp_b1 - y * hp_a1) + q * (x * hp_b2 - y * hp_a2)).
    generalize (x * (p * (B30 * hp_b1 - hp_a1 * hp_b2) + q * (B30 * hp_b2 - hp_a2 * hp_b2)))
               (r * (hp_a1 * p + hp_a2 * q)) (gain_of p q).
    intros u v g w F G Hu.
    assert (A1 : Z.abs ((- hp_a1 * p - hp_a2 * q) * s1) <= Z.abs (- hp_a1 * p - hp_a2 * q) * hp_S1)
      by (rewrite Z.abs_mul; apply Z.mul_le_mono_nonneg_l; lia).
    assert (A2 : Z.abs (B30 * p * s2) <= B30 * Z.abs p * hp_S2)
      by (rewrite !Z.abs_mul; apply Z.mul_le_mono_nonneg_l; [unfold B30; lia|exact H2]).
    revert Hu A1 A2 F. generalize (up (Z.abs (- hp_a1 * p - hp_a2 * q) * hp_S1 + B30 * Z.abs p * hp_S2 + g)).
    generalize ((- hp_a1 * p - hp_a2 * q) * s1) (Z.abs (- hp_a1 * p - hp_a2 * q) * hp_S1) (B30 * p * s2) (B30 * Z.abs p * hp_S2).
    unfold B30. clear - G. lia.
  - destruct (bounds ((p1, q1) :: l)) as [|[[p' q'] b'] bs] eqn:Eb; [contradiction|].
    destruct Hh as [<- <-]. subst q1.
    pose proof (Forall_inv_tail H) as Ht. specialize (IH s1 s2 x y r E Hx Hr H1 H2 Ht).
    constructor; [|exact IH]. pose proof (Forall_inv Ht) as Hp. clear IH H Ht Eb.
    unfold within in *. pose proof (functional_step p q s1 s2 x y r E) as F. pose proof (gain_le p q x r Hx Hr) as G.
    match goal with |- _ <= _ + up ?v => pose proof (up_le v) as Hu end.
    revert F G Hu.
    generalize (p * (s2 + x * hp_b1 - y * hp_a1) + q * (x * hp_b2 - y * hp_a2)).
    generalize (x * (p * (B30 * hp_b1 - hp_a1 * hp_b2) + q * (B30 * hp_b2 - hp_a2 * hp_b2)))
               (r * (hp_a1 * p + hp_a2 * q)) (gain_of p q).
    intros u v g w F G Hu.
    assert (A1 : Z.abs ((- hp_a1 * p - hp_a2 * q - B30 * p1) * s1) <= Z.abs (- hp_a1 * p - hp_a2 * q - B30 * p1) * hp_S1)
      by (rewrite Z.abs_mul; apply Z.mul_le_mono_nonneg_l; lia).
    replace ((- hp_a1 * p - hp_a2 * q) * s1 + B30 * p * s2)
      with ((- hp_a1 * p - hp_a2 * q - B30 * p1) * s1 + B30 * (p1 * s1 + p * s2)) in F by ring.
    revert Hu A1 F Hp.
    generalize (up (Z.abs (- hp_a1 * p - hp_a2 * q - B30 * p1) * hp_S1 + g)).
    generalize ((- hp_a1 * p - hp_a2 * q - B30 * p1) * s1) (Z.abs (- hp_a1 * p - hp_a2 * q - B30 * p1) * hp_S1) (p1 * s1 + p * s2).
    unfold B30. clear - G. lia.
Qed.

Lemma polygon_ok s1 s2 x y r :
  B30 * y = s1 + x * hp_b2 - r -> Z.abs x <= hp_U -> 0 <= r < B30 ->
  Z.abs s1 <= hp_S1 -> Z.abs s2 <= hp_S2 ->
  Forall (within s1 s2) polygon -> Forall (within (s2 + x * hp_b1 - y * hp_a1) (x * hp_b2 - y * hp_a2)) polygon.
Proof. unfold polygon. apply bounds_ok. Qed.

(** The first bound closes the invariant on the states. *)
Lemma polygon_first : exists b l, polygon = (2 ^ 32, 0, b) :: l /\ b <= 2 ^ 32 * hp_S1.
Proof.
  assert (E : (match polygon with (p, q, b) :: _ => (p =? 2 ^ 32) && (q =? 0) && (b <=? 2 ^ 32 * hp_S1) | [] => false end) = true)
    by (vm_compute; reflexivity).
  destruct polygon as [|[[p q] b] l]; [discriminate|]. exists b, l.
  apply andb_prop in E as [E E3]. apply andb_prop in E as [E1 E2].
  apply Z.eqb_eq in E1, E2. apply Z.leb_le in E3. subst. auto.
Qed.

Lemma i64_in x : - 2 ^ 63 <= x < 2 ^ 63 -> i64 x = x.
Proof. intros H. unfold i64. rewrite Z.mod_small; lia. Qed.
Lemma i32_in x : - 2 ^ 31 <= x < 2 ^ 31 -> i32 x = x.
Proof. intros H. unfold i32. rewrite Z.mod_small; lia. Qed.
Lemma i16_in x : - 2 ^ 15 <= x < 2 ^ 15 -> i16 x = x.
Proof. intros H. unfold i16. rewrite Z.mod_small; lia. Qed.
Lemma m64_in x : - 2 ^ 63 <= x < 2 ^ 63 -> m64 x = ret x.
Proof. intros H. unfold m64. rewrite i64_in by exact H. rewrite Z.eqb_refl. reflexivity. Qed.
Lemma m32_in x : - 2 ^ 31 <= x < 2 ^ 31 -> m32 x = ret x.
Proof. intros H. unfold m32. rewrite i32_in by exact H. rewrite Z.eqb_refl. reflexivity. Qed.
Lemma m16_in x : - 2 ^ 15 <= x < 2 ^ 15 -> m16 x = ret x.
Proof. intros H. unfold m16. rewrite i16_in by exact H. rewrite Z.eqb_refl. reflexivity. Qed.
Lemma bind_ret {A C} (a : A) (f : A -> M C) : bindm (ret a) f = f a.
Proof. unfold bindm, ret. destruct (f a) as [[b o]|]; reflexivity. Qed.

(** A step of the filter: no overflow, the output is bounded, the invariant is kept. *)
Lemma hp50_exact s1 s2 x : hp_inv (s1, s2) -> Z.abs x <= hp_U ->
  let y := (s1 + x * hp_b2) / 2 ^ 30 in
  let s' := (s2 + x * hp_b1 - y * hp_a1, x * hp_b2 - y * hp_a2) in
  filter_hp50 (s1, s2) x = ret (y, s') /\ Z.abs y <= hp_Y /\ hp_inv s'.
Proof.
  intros (H1 & H2 & H) Hx y s'. cbn [fst snd] in H1, H2, H. unfold s'. clear s'.
  assert (E0 : hp_S1 <= 1353748000000000000 /\ hp_S2 = 2 ^ 62) by (split; [vm_compute; discriminate|reflexivity]).
  destruct E0 as [E1 E2].
  set (r := s1 + x * hp_b2 - B30 * y).
  assert (Er : 0 <= r < B30) by (unfold r, y, B30; Z.div_mod_to_equations; lia).
  assert (Ey : B30 * y = s1 + x * hp_b2 - r) by (unfold r; lia).
  assert (Hy : Z.abs y <= hp_Y) by (revert Ey Er Hx H1 E1; unfold hp_Y, hp_U, hp_b2, B30; clear; lia).
  pose proof (polygon_ok s1 s2 x y r Ey Hx Er H1 H2 H) as H'.
  set (s1' := s2 + x * hp_b1 - y * hp_a1) in *. set (s2' := x * hp_b2 - y * hp_a2) in *.
  assert (H1' : Z.abs s1' <= hp_S1).
  { destruct polygon_first as (b & l & Ep & Hb). rewrite Ep in H'. apply Forall_inv in H'. unfold within in H'.
    revert H' Hb. generalize s1' hp_S1. clear. intros. lia. }
  assert (H2' : Z.abs s2' <= hp_S2).
  { unfold s2'. revert Hy Hx E2. unfold hp_Y, hp_U, hp_b2, hp_a2. clear. lia. }
  split; [|split; [exact Hy|repeat split; assumption]].
  unfold filter_hp50.
  rewrite m64_in by (revert H1 Hx E1; unfold hp_U, hp_b2; clear; lia). rewrite bind_ret. change (shr (s1 + x * hp_b2) 30) with y.
  rewrite m32_in by (revert Hy; unfold hp_Y; clear; lia). rewrite bind_ret.
  rewrite m64_in by (revert H2 Hx E2; unfold hp_U, hp_b1; clear; lia). rewrite bind_ret.
  fold s1'. rewrite m64_in by (revert H1' E1; clear; lia). rewrite bind_ret.
  fold s2'. rewrite m64_in by (revert H2' E2; clear; lia). rewrite bind_ret. reflexivity.
Qed.

Lemma hp50_ok s x : hp_inv s -> Z.abs x <= hp_U ->
  exists y s', filter_hp50 s x = ret (y, s') /\ Z.abs y <= hp_Y /\ hp_inv s'.
Proof. destruct s as [s1 s2]. intros H Hx. eexists _, _. apply hp50_exact; assumption. Qed.

Lemma hp_inv_init : hp_inv (0, 0).
Proof.
  split; [vm_compute; discriminate|]. split; [vm_compute; discriminate|].
  assert (E : forallb (fun r => 0 <=? snd r) polygon = true) by (vm_compute; reflexivity).
  apply Forall_forall. intros [[p q] b] Hin. rewrite forallb_forall in E. specialize (E _ Hin). cbn [snd] in E.
  apply Z.leb_le in E. cbn [within fst snd]. rewrite !Z.mul_0_r. exact E.
Qed.
