(** * Accuracy of the tables of the transform *)
From Coq Require Import Reals ZArith List Bool Lia Lra ZifyBool.
From Verif Require Import Base BaseProofs MdctSpec MdctMath ErrNorm.
Import ListNotations.
Local Open Scope R_scope.

(** ** Complex numbers of modulus 1 *)
Definition cmul (a b : cplx) : cplx := (fst a * fst b - snd a * snd b, fst a * snd b + snd a * fst b).
Definition ei (t : R) : cplx := (cos t, sin t).
Lemma md_cmul a b : md (cmul a b) = md a * md b.
Proof. unfold md. rewrite <- sqrt_mult_alt by apply sq_pos. f_equal. unfold sq, cmul. cbn [fst snd]. ring. Qed.
Lemma md_ei t : md (ei t) = 1.
Proof. unfold md, sq, ei. cbn [fst snd]. rewrite <- sqrt_1. f_equal. pose proof (sin2_cos2 t) as H. unfold Rsqr in H. lra. Qed.
Lemma ei_add a b : cmul (ei a) (ei b) = ei (a + b).
Proof. unfold cmul, ei. cbn [fst snd]. rewrite cos_plus, sin_plus. f_equal; ring. Qed.

(** ** Integer approximations, of step [2^-60] *)
Definition QZ : Z := 2 ^ 60.
Definition Q : R := IZR QZ.
Lemma Qpos : 0 < Q. Proof. apply IZR_lt. reflexivity. Qed.
Definition zc (z : Z * Z) : cplx := (IZR (fst z) / Q, IZR (snd z) / Q).
Definition near (z : Z * Z) (w : cplx) (e : Z) : Prop := (0 <= e)%Z /\ md (csub (zc z) w) <= IZR e / Q.
Definition mulz (a b : Z * Z) : Z * Z := let '(x, y) := a in let '(u, v) := b in ((x * u - y * v) / QZ, (x * v + y * u) / QZ)%Z.
Definition mule (d e : Z) : Z := (d + e + d * e / QZ + 4)%Z.

Lemma div_nonneg x y : 0 <= x -> 0 < y -> 0 <= x / y.
Proof. intros. apply Rmult_le_pos; [assumption|left; apply Rinv_0_lt_compat; assumption]. Qed.
Lemma floor_err n : Rabs (IZR (n / QZ) / Q - IZR n / Q / Q) <= 1 / Q.
Proof.
  pose proof Qpos as P. pose proof (Z.div_mod n QZ ltac:(discriminate)) as D. pose proof (Z.mod_pos_bound n QZ ltac:(reflexivity)) as B.
  assert (E : IZR n = Q * IZR (n / QZ) + IZR (n mod QZ)) by (unfold Q; rewrite <- mult_IZR, <- plus_IZR; f_equal; exact D).
  rewrite E. replace (IZR (n / QZ) / Q - (Q * IZR (n / QZ) + IZR (n mod QZ)) / Q / Q) with (- (IZR (n mod QZ) / Q / Q)) by (field; lra).
  rewrite Rabs_Ropp. assert (0 <= IZR (n mod QZ) < Q) by (unfold Q; split; [apply IZR_le; lia|apply IZR_lt; lia]).
  assert (0 <= IZR (n mod QZ) / Q <= 1) by (split; [apply div_nonneg; lra|apply Rmult_le_reg_r with Q; [lra|]; field_simplify; lra]).
  rewrite Rabs_pos_eq; [apply Rmult_le_compat_r; [left; apply Rinv_0_lt_compat, P|lra]|apply div_nonneg; lra].
Qed.
Lemma sqrt2_2 : sqrt 2 <= 2. Proof. apply sqrt_le_sq; lra. Qed.
Lemma near_mul z1 z2 a b e1 e2 : near z1 (ei a) e1 -> near z2 (ei b) e2 -> near (mulz z1 z2) (ei (a + b)) (mule e1 e2).
Proof.
  intros (P1 & N1) (P2 & N2). pose proof Qpos as P. assert (Pe : (0 <= e1 * e2 / QZ)%Z) by (apply Z.div_pos; [nia|reflexivity]). split; [unfold mule; lia|].
  assert (R : md (csub (zc (mulz z1 z2)) (cmul (zc z1) (zc z2))) <= sqrt 2 * (1 / Q)).
  { destruct z1 as (x, y), z2 as (u, v). unfold mulz. apply md_le_comp; unfold csub, zc, cmul; cbn [fst snd].
    - replace (IZR x / Q * (IZR u / Q) - IZR y / Q * (IZR v / Q)) with (IZR (x * u - y * v) / Q / Q); [apply floor_err|]. rewrite minus_IZR, !mult_IZR. field. lra.
    - replace (IZR x / Q * (IZR v / Q) + IZR y / Q * (IZR u / Q)) with (IZR (x * v + y * u) / Q / Q); [apply floor_err|]. rewrite plus_IZR, !mult_IZR. field. lra. }
  set (d1 := csub (zc z1) (ei a)) in *. set (d2 := csub (zc z2) (ei b)) in *.
  assert (E : csub (zc (mulz z1 z2)) (ei (a + b)) = cadd (csub (zc (mulz z1 z2)) (cmul (zc z1) (zc z2))) (cadd (cmul d1 (ei b)) (cadd (cmul (ei a) d2) (cmul d1 d2)))).
  { rewrite <- ei_add. unfold d1, d2, csub, cadd, cmul. cbn [fst snd]. f_equal; ring. }
  rewrite E. eapply Rle_trans; [apply md_triangle|]. eapply Rle_trans; [apply Rplus_le_compat; [exact R|eapply Rle_trans; [apply md_triangle|apply Rplus_le_compat_l, md_triangle]]|].
  rewrite !md_cmul, !md_ei. pose proof (md_pos d1). pose proof (md_pos d2). pose proof sqrt2_2.
  assert (X : md d1 * md d2 <= (IZR (e1 * e2 / QZ) + 1) / Q).
  { apply Rle_trans with (IZR e1 / Q * (IZR e2 / Q)); [apply Rmult_le_compat; assumption|].
    replace (IZR e1 / Q * (IZR e2 / Q)) with (IZR (e1 * e2) / Q / Q) by (rewrite mult_IZR; field; lra).
    pose proof (floor_err (e1 * e2)) as F. pose proof (Rle_abs (- (IZR (e1 * e2 / QZ) / Q - IZR (e1 * e2) / Q / Q))) as F'. rewrite Rabs_Ropp in F'. replace ((IZR (e1 * e2 / QZ) + 1) / Q) with (IZR (e1 * e2 / QZ) / Q + 1 / Q) by (field; lra). lra. }
  assert (Y : sqrt 2 * (1 / Q) <= 2 / Q) by (replace (2 / Q) with (2 * (1 / Q)) by (field; lra); apply Rmult_le_compat_r; [apply div_nonneg; lra|assumption]).
  unfold mule. rewrite !plus_IZR. replace ((IZR e1 + IZR e2 + IZR (e1 * e2 / QZ) + 4) / Q) with (2 / Q + (IZR e1 / Q + (IZR e2 / Q + (IZR (e1 * e2 / QZ) + 1) / Q)) + 1 / Q) by (field; lra).
  assert (0 <= 1 / Q) by (apply div_nonneg; lra). lra.
Qed.

(** Powers. *)
Definition az : Type := (Z * Z) * Z.
Definition mula (a b : az) : az := (mulz (fst a) (fst b), mule (snd a) (snd b)).
Fixpoint powa (a : az) (n : positive) : az :=
  match n with xH => a | xO n => let b := powa a n in mula b b | xI n => let b := powa a n in mula a (mula b b) end.
Definition neara (a : az) (t : R) : Prop := near (fst a) (ei t) (snd a).
Lemma mula_near a b t s : neara a t -> neara b s -> neara (mula a b) (t + s).
Proof. intros A B. apply near_mul; assumption. Qed.
Lemma powa_near a t n : neara a t -> neara (powa a n) (IZR (Zpos n) * t).
Proof.
  intros A. induction n as [n IH|n IH|]; cbn [powa].
  - replace (IZR (Z.pos n~1) * t) with (t + (IZR (Z.pos n) * t + IZR (Z.pos n) * t)) by (rewrite Pos2Z.inj_xI, plus_IZR, mult_IZR; ring). apply mula_near; [exact A|]. apply mula_near; exact IH.
  - replace (IZR (Z.pos n~0) * t) with (IZR (Z.pos n) * t + IZR (Z.pos n) * t) by (rewrite Pos2Z.inj_xO, mult_IZR; ring). apply mula_near; exact IH.
  - rewrite Rmult_1_l. exact A.
Qed.

(** ** The root of order 46080 *)
Lemma pi_bounds : 314159265358979 / 100000000000000 <= PI <= 314159265358980 / 100000000000000.
Proof.
  pose proof (PI_2_3_7_ineq 7) as (A & B).
  cbn [sum_f_R0 Nat.mul Nat.add] in A, B. unfold tg_alt, PI_2_3_7_tg, Ratan_seq in A, B.
  cbn [Nat.add Nat.mul pow INR] in A, B. split; lra.
Qed.
Lemma fact_0 : INR (fact 0) = 1. Proof. rewrite INR_IZR_INZ. apply f_equal. vm_compute. reflexivity. Qed.
Lemma fact_1 : INR (fact 1) = 1. Proof. rewrite INR_IZR_INZ. apply f_equal. vm_compute. reflexivity. Qed.
Lemma fact_2 : INR (fact 2) = 2. Proof. rewrite INR_IZR_INZ. apply f_equal. vm_compute. reflexivity. Qed.
Lemma fact_3 : INR (fact 3) = 6. Proof. rewrite INR_IZR_INZ. apply f_equal. vm_compute. reflexivity. Qed.
Lemma fact_4 : INR (fact 4) = 24. Proof. rewrite INR_IZR_INZ. apply f_equal. vm_compute. reflexivity. Qed.
Lemma fact_5 : INR (fact 5) = 120. Proof. rewrite INR_IZR_INZ. apply f_equal. vm_compute. reflexivity. Qed.
Lemma fact_6 : INR (fact 6) = 720. Proof. rewrite INR_IZR_INZ. apply f_equal. vm_compute. reflexivity. Qed.
Lemma fact_7 : INR (fact 7) = 5040. Proof. rewrite INR_IZR_INZ. apply f_equal. vm_compute. reflexivity. Qed.
Lemma fact_8 : INR (fact 8) = 40320. Proof. rewrite INR_IZR_INZ. apply f_equal. vm_compute. reflexivity. Qed.
Lemma fact_9 : INR (fact 9) = 362880. Proof. rewrite INR_IZR_INZ. apply f_equal. vm_compute. reflexivity. Qed.
Definition order : Z := 46080.
Definition theta : R := 2 * PI / IZR order.
Definition master : az := ((1152921493889074350, 157205282891273), 3)%Z.
Lemma master_near : neara master theta.
Proof.
  pose proof pi_bounds as PB. set (lo := 314159265358979 / 2304000000000000000). set (hi := 31415926535898 / 230400000000000000).
  assert (T : lo <= theta <= hi) by (unfold theta, order, lo, hi; lra). assert (L0 : 0 <= lo) by (unfold lo; lra). assert (H1 : hi <= 1) by (unfold hi; lra).
  assert (C : cos hi <= cos theta <= cos lo) by (split; apply cos_decr_1; lra).
  assert (S : sin lo <= sin theta <= sin hi) by (split; apply sin_incr_1; lra).
  pose proof (COS hi ltac:(lra) ltac:(lra)) as (C1 & _). pose proof (COS lo ltac:(lra) ltac:(lra)) as (_ & C2).
  pose proof (SIN lo ltac:(lra) ltac:(lra)) as (S1 & _). pose proof (SIN hi ltac:(lra) ltac:(lra)) as (_ & S2).
  unfold cos_lb, cos_ub, cos_approx, sin_lb, sin_ub, sin_approx in *. cbn [sum_f_R0 Nat.mul Nat.add] in *. unfold cos_term, sin_term in *. cbn [Nat.mul Nat.add pow] in *. rewrite ?fact_0, ?fact_1, ?fact_2, ?fact_3, ?fact_4, ?fact_5, ?fact_6, ?fact_7, ?fact_8, ?fact_9 in *.
  unfold neara, near. cbn [fst snd master]. split; [lia|]. unfold Q, QZ. change (2 ^ 60)%Z with 1152921504606846976%Z.
  eapply Rle_trans; [apply (md_le_comp _ (2 / 1152921504606846976))|].
  - unfold csub, zc, ei, Q, QZ. cbn [fst snd]. change (2 ^ 60)%Z with 1152921504606846976%Z. unfold lo, hi in *. apply Rabs_le. split; lra.
  - unfold csub, zc, ei, Q, QZ. cbn [fst snd]. change (2 ^ 60)%Z with 1152921504606846976%Z. unfold lo, hi in *. apply Rabs_le. split; lra.
  - assert (sqrt 2 <= 3 / 2) by (apply sqrt_le_sq; lra). lra.
Qed.
