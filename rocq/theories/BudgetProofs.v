(** * Bit consumption of the arithmetic coder against the tables of costs *)
From Coq Require Import ZArith List Bool Lia ZifyBool.
From Verif Require Import Base BaseProofs Tables TableProofs BitsModel BitsWriteSafe BitsAbstract BitsRoundTrip.
From Verif Require Import ConfigModel SideModel SideProofs SpecModel SpecProofs SpecPairs SpecFrame BudgetModel BudgetSpec.
Import ListNotations.
Local Open Scope Z_scope.

(** ** Logarithms from below *)

(** Fractional bits of the logarithm of [m / 2^31], by squaring. *)
Fixpoint flog (n : nat) (m : Z) : Z :=
  match n with
  | O => 0
  | S n => let m2 := Z.shiftr (m * m) 31 in
           if 4294967296 <=? m2 then 2 ^ Z.of_nat n + flog n (Z.div2 m2) else flog n m2
  end.

Lemma pow_double x n : 0 <= n -> x ^ (2 ^ (n + 1)) = (x * x) ^ (2 ^ n).
Proof.
  intros H. rewrite Z.pow_add_r by lia. change (2 ^ 1) with 2. rewrite (Z.mul_comm _ 2).
  pose proof (Z.pow_nonneg 2 n ltac:(lia)). rewrite Z.pow_mul_r by lia. f_equal. ring.
Qed.

Lemma flog_ok n : forall m, 2 ^ 31 <= m < 2 ^ 32 ->
  0 <= flog n m /\ 2 ^ flog n m * (2 ^ 31) ^ (2 ^ Z.of_nat n) <= m ^ (2 ^ Z.of_nat n).
Proof.
  induction n as [|n IH]; intros m Hm; cbn [flog].
  - change (2 ^ Z.of_nat 0) with 1. split; [lia|]. rewrite !Z.pow_1_r, Z.pow_0_r. lia.
  - cbv zeta. rewrite Z.shiftr_div_pow2, Z.div2_div by lia. change 4294967296 with (2 ^ 32). set (m2 := m * m / 2 ^ 31).
    assert (H2 : 2 ^ 31 * m2 <= m * m) by (apply Z.mul_div_le; lia).
    assert (L2 : 2 ^ 31 <= m2) by (apply Z.div_le_lower_bound; nia).
    assert (U2 : m2 < 2 ^ 33) by (apply Z.div_lt_upper_bound; nia).
    clearbody m2.
    replace (Z.of_nat (S n)) with (Z.of_nat n + 1) by lia.
    rewrite pow_double by lia. rewrite (pow_double m) by lia.
    set (N := 2 ^ Z.of_nat n). assert (HN : 0 < N) by (apply Z.pow_pos_nonneg; lia).
    assert (HB : 0 <= (2 ^ 31) ^ N) by (apply Z.pow_nonneg; lia).
    assert (M : (2 ^ 31) ^ N * m2 ^ N <= (m * m) ^ N).
    { rewrite <- Z.pow_mul_l. apply Z.pow_le_mono_l. lia. }
    rewrite (Z.pow_mul_l (2 ^ 31) (2 ^ 31)).
    destruct (2 ^ 32 <=? m2) eqn:E.
    + destruct (IH (m2 / 2)) as (P & Q); [split; [apply Z.div_le_lower_bound; lia|apply Z.div_lt_upper_bound; lia]|].
      fold N in Q. split; [lia|]. rewrite Z.pow_add_r by lia.
      assert (M2 : 2 ^ N * (m2 / 2) ^ N <= m2 ^ N).
      { rewrite <- Z.pow_mul_l. apply Z.pow_le_mono_l. split; [|apply Z.mul_div_le; lia].
        assert (0 <= m2 / 2) by (apply Z.div_pos; lia). lia. }
      assert (0 <= 2 ^ N) by (apply Z.pow_nonneg; lia).
      set (b := (2 ^ 31) ^ N) in *. set (f := 2 ^ flog n (m2 / 2)) in *.
      apply Z.le_trans with (b * (2 ^ N * (f * b))); [apply Z.eq_le_incl; ring|].
      apply Z.le_trans with (b * m2 ^ N); [|exact M].
      apply Z.mul_le_mono_nonneg_l; [exact HB|]. apply Z.le_trans with (2 ^ N * (m2 / 2) ^ N); [|exact M2].
      apply Z.mul_le_mono_nonneg_l; assumption.
    + destruct (IH m2) as (P & Q); [lia|]. fold N in Q. split; [exact P|].
      set (b := (2 ^ 31) ^ N) in *. set (f := 2 ^ flog n m2) in *.
      apply Z.le_trans with (b * (f * b)); [apply Z.eq_le_incl; ring|].
      apply Z.le_trans with (b * m2 ^ N); [|exact M].
      apply Z.mul_le_mono_nonneg_l; assumption.
Qed.

(** Resolution of the costs, kept out of the sight of computations: [2048 = 2^11]. *)
Definition NN : Z := 2048.
Lemma NN_val : NN = 2048. Proof. reflexivity. Qed.
Lemma NN_pos : 0 < NN. Proof. reflexivity. Qed.
Global Opaque NN.

(** Cost of a symbol of probability [r / 1024], in 1/2048 of a bit. *)
Definition cost (r : Z) : Z := 10 * NN - (NN * Z.log2 r + flog 11 (r * 2 ^ (31 - Z.log2 r))).

Lemma cost_ok r : 0 < r <= 1024 -> 1024 ^ NN <= r ^ NN * 2 ^ (cost r).
Proof.
  pose proof NN_pos as NNp.
  intros Hr. unfold cost. pose proof (Z.log2_spec r ltac:(lia)) as Hl.
  pose proof (Z.log2_nonneg r) as L0. pose proof (Z.log2_le_mono r 1024 ltac:(lia)) as L1. change (Z.log2 1024) with 10 in L1.
  set (e := Z.log2 r) in *. set (m := r * 2 ^ (31 - e)).
  assert (P : 0 < 2 ^ (31 - e)) by (apply Z.pow_pos_nonneg; lia).
  assert (Hm : 2 ^ 31 <= m < 2 ^ 32).
  { unfold m. replace (2 ^ 31) with (2 ^ e * 2 ^ (31 - e)) by (rewrite <- Z.pow_add_r by lia; f_equal; lia).
    replace (2 ^ 32) with (2 ^ Z.succ e * 2 ^ (31 - e)) by (rewrite <- Z.pow_add_r by lia; f_equal; lia). nia. }
  destruct (flog_ok 11 m Hm) as (F0 & F). replace (2 ^ Z.of_nat 11) with NN in F by (rewrite NN_val; reflexivity).
  set (f := flog 11 m) in *. clearbody f.
  assert (F' : 2 ^ f * (2 ^ 31) ^ NN <= r ^ NN * (2 ^ (31 - e)) ^ NN).
  { rewrite <- Z.pow_mul_l. exact F. }
  rewrite <- !Z.pow_mul_r in F' by lia.
  change 1024 with (2 ^ 10) at 1. rewrite <- Z.pow_mul_r by lia.
  assert (R : r ^ NN <= 2 ^ (10 * NN)).
  { rewrite Z.pow_mul_r by lia. apply Z.pow_le_mono_l. change (2 ^ 10) with 1024. lia. }
  assert (X1 : 0 <= NN * e) by (apply Z.mul_nonneg_nonneg; lia). assert (X2 : 0 <= (31 - e) * NN) by (apply Z.mul_nonneg_nonneg; lia).
  assert (Q : 2 ^ (f + NN * e) <= r ^ NN).
  { apply Z.mul_le_mono_pos_r with (2 ^ ((31 - e) * NN)); [apply Z.pow_pos_nonneg; lia|].
    eapply Z.le_trans; [|exact F']. rewrite <- !Z.pow_add_r by lia. apply Z.pow_le_mono_r; lia. }
  assert (Hc' : f + NN * e <= 10 * NN).
  { apply (Z.pow_le_mono_r_iff 2); [lia|lia|]. eapply Z.le_trans; [exact Q|exact R]. }
  apply Z.le_trans with (2 ^ (f + NN * e) * 2 ^ (10 * NN - (NN * e + f))).
  - rewrite <- Z.pow_add_r by lia. apply Z.pow_le_mono_r; lia.
  - apply Z.mul_le_mono_nonneg_r; [apply Z.pow_nonneg; lia|exact Q].
Qed.

Lemma cost_nonneg r : 0 < r <= 1024 -> 0 <= cost r.
Proof.
  pose proof NN_pos as NNp.
  intros Hr. destruct (Z.lt_ge_cases (cost r) 0) as [H|H]; [|exact H].
  pose proof (cost_ok r Hr) as C. rewrite (Z.pow_neg_r 2 _ H) in C. rewrite Z.mul_0_r in C.
  pose proof (Z.pow_pos_nonneg 1024 NN ltac:(lia) ltac:(lia)). lia.
Qed.

(** Loss of a division of the range by 1024, at most 46/2048 of a bit. *)
Lemma loss_46 : 66559 ^ NN <= 65536 ^ NN * 2 ^ 46.
Proof.
  pose proof NN_pos as NNp.
  assert (H : 2 ^ 31 <= 2 ^ 48 / 66559 < 2 ^ 32) by (vm_compute; split; congruence).
  destruct (flog_ok 11 _ H) as (_ & F). replace (2 ^ Z.of_nat 11) with NN in F by (rewrite NN_val; reflexivity).
  assert (E : flog 11 (2 ^ 48 / 66559) = 2002) by (vm_compute; reflexivity). rewrite E in F. clear E.
  pose proof (Z.mul_div_le (2 ^ 48) 66559 ltac:(lia)) as D. set (m := 2 ^ 48 / 66559) in *. clearbody m.
  assert (D' : 66559 ^ NN * m ^ NN <= 2 ^ (48 * NN)).
  { rewrite <- Z.pow_mul_l, Z.pow_mul_r by lia. apply Z.pow_le_mono_l. lia. }
  rewrite <- Z.pow_mul_r in F by lia. rewrite <- Z.pow_add_r in F by lia.
  change 65536 with (2 ^ 16). rewrite <- Z.pow_mul_r by lia. rewrite <- Z.pow_add_r by lia.
  apply Z.mul_le_mono_pos_r with (2 ^ (2002 + 31 * NN)); [apply Z.pow_pos_nonneg; lia|].
  apply Z.le_trans with (66559 ^ NN * m ^ NN).
  - apply Z.mul_le_mono_nonneg_l; [apply Z.pow_nonneg; lia|exact F].
  - eapply Z.le_trans; [exact D'|]. rewrite <- Z.pow_add_r by lia. apply Z.pow_le_mono_r; [|pose proof NN_val]; lia.
Qed.

Lemma step_loss R r : 65536 <= R -> 0 < r <= 1024 ->
  R ^ NN <= (R / 1024 * r) ^ NN * 2 ^ (cost r + 46).
Proof.
  pose proof NN_pos as NNp.
  intros HR Hr. pose proof (Z.div_mod R 1024 ltac:(lia)) as D. pose proof (Z.mod_pos_bound R 1024 ltac:(lia)) as M.
  set (q := R / 1024) in *. assert (Hq : 64 <= q) by (apply Z.div_le_lower_bound; lia).
  assert (H : 64 * R <= 66559 * q) by lia. clear D M. clearbody q.
  pose proof (cost_ok r Hr) as C. pose proof (cost_nonneg r Hr) as C0. pose proof loss_46 as L.
  apply Z.mul_le_mono_pos_l with (64 ^ NN); [apply Z.pow_pos_nonneg; lia|].
  rewrite <- Z.pow_mul_l. apply Z.le_trans with ((66559 * q) ^ NN); [apply Z.pow_le_mono_l; lia|].
  rewrite Z.pow_mul_l. rewrite (Z.pow_mul_l q r), Z.pow_add_r by lia.
  assert (Q : 0 <= q ^ NN) by (apply Z.pow_nonneg; lia).
  apply Z.le_trans with (65536 ^ NN * 2 ^ 46 * q ^ NN); [apply Z.mul_le_mono_nonneg_r; assumption|].
  replace 65536 with (64 * 1024) by reflexivity. rewrite (Z.pow_mul_l 64 1024).
  set (A := 64 ^ NN). set (B := 1024 ^ NN) in *. set (X := 2 ^ 46). set (Y := q ^ NN) in *. set (W := r ^ NN) in *. set (V := 2 ^ cost r) in *.
  apply Z.le_trans with (A * (Y * X * B)); [apply Z.eq_le_incl; ring|].
  apply Z.le_trans with (A * (Y * X * (W * V))); [|apply Z.eq_le_incl; ring].
  apply Z.mul_le_mono_nonneg_l; [apply Z.pow_nonneg; lia|].
  apply Z.mul_le_mono_nonneg_l; [|exact C]. apply Z.mul_nonneg_nonneg; [exact Q|apply Z.pow_nonneg; lia].
Qed.

(** ** Consumption of a sequence of operations *)
Definition op_cost (o : wop) : Z := match o with PutBits _ _ => 0 | PutSym m s => cost (sym_range m s) end.
Definition ac_cost (ops : list wop) : Z := fold_right (fun o s => op_cost o + s) 0 ops.
Definition nsyms (ops : list wop) : Z := fold_right (fun o s => b2z (negb (is_bits o)) + s) 0 ops.

Lemma ac_cost_app a b : ac_cost (a ++ b) = ac_cost a + ac_cost b.
Proof. induction a as [|o a IH]; [reflexivity|]. cbn [app ac_cost fold_right]. fold (ac_cost a) (ac_cost (a ++ b)). lia. Qed.
Lemma nsyms_app a b : nsyms (a ++ b) = nsyms a + nsyms b.
Proof. induction a as [|o a IH]; [reflexivity|]. cbn [app nsyms fold_right]. fold (nsyms a) (nsyms (a ++ b)). lia. Qed.

Lemma ok_sym_range m s : ok_sym m s -> 0 < sym_range m s <= 1024.
Proof.
  pose proof NN_pos as NNp.
  intros (Hm & Hs & Hr). destruct (wf_model_bounds m s Hm Hs) as (Hlo & _ & Hhi). lia.
Qed.
Lemma op_cost_nonneg o : op_ok o -> 0 <= op_cost o.
Proof. destruct o; cbn [op_ok op_cost]; [lia|]. intros H. apply cost_nonneg, ok_sym_range, H. Qed.
Lemma ac_cost_nonneg ops : Forall op_ok ops -> 0 <= ac_cost ops.
Proof. induction 1 as [|o ops Ho _ IH]; cbn; [lia|]. fold (ac_cost ops). pose proof (op_cost_nonneg o Ho). lia. Qed.
Lemma nsyms_nonneg ops : 0 <= nsyms ops.
Proof. induction ops as [|o ops IH]; cbn [nsyms fold_right]; [lia|]. fold (nsyms ops). unfold b2z. destruct (negb (is_bits o)); lia. Qed.

Lemma range_loss ops : Forall op_ok ops -> forall a, a_ok a ->
  let f := fold_left astep ops a in
  a_R a ^ NN * 2 ^ (8 * NN * a_k f) <= a_R f ^ NN * 2 ^ (8 * NN * a_k a) * 2 ^ (ac_cost ops + 46 * nsyms ops).
Proof.
  pose proof NN_pos as NNp.
  induction 1 as [|o ops Ho Hos IH]; intros a Ha; cbn [fold_left].
  - cbn [ac_cost nsyms fold_right]. rewrite Z.pow_0_r. cbv zeta. lia.
  - pose proof (astep_ok a o Ho Ha) as Ha'. specialize (IH _ Ha'). cbv zeta in *.
    set (f := fold_left astep ops (astep a o)) in *.
    assert (Hf : a_ok f) by (apply asteps_ok; assumption).
    pose proof (ac_cost_nonneg ops Hos) as C0. pose proof (nsyms_nonneg ops) as N0.
    cbn [ac_cost nsyms fold_right]. fold (ac_cost ops) (nsyms ops).
    destruct o as [v n|m s]; cbn [astep a_bits a_R a_k op_cost is_bits negb b2z] in *.
    + exact IH.
    + destruct Ho as (Hm & Hs & Hsr). pose proof (ok_sym_range m s (conj Hm (conj Hs Hsr))) as Hr.
      pose proof Ha as (HR & _ & Hk & _). pose proof Hf as (HRf & _ & Hkf & _).
      pose proof (step_loss (a_R a) (sym_range m s) ltac:(lia) Hr) as S.
      pose proof (cost_nonneg _ Hr) as C1.
      unfold a_sym in *. cbv zeta in *. cbn [a_R a_k] in *.
      assert (HR1 : 0 < a_R a / 1024 * sym_range m s < 2 ^ 24).
      { destruct (sym_split (a_R a) m s (conj Hm (conj Hs Hsr)) HR) as (E1 & E2 & E3 & E4 & E5). lia. }
      set (R1 := a_R a / 1024 * sym_range m s) in *. destruct (jshift_spec R1 HR1) as (Hj & _).
      set (j := jshift R1) in *. clearbody R1 j.
      rewrite Z.pow_mul_l in IH. rewrite <- (Z.pow_mul_r 256) in IH by lia.
      change 256 with (2 ^ 8) in IH. rewrite <- Z.pow_mul_r in IH by lia.
      replace (8 * NN * (a_k a + j)) with (8 * NN * a_k a + 8 * (j * NN)) in IH by ring.
      rewrite Z.pow_add_r in IH by lia.
      set (J := 2 ^ (8 * (j * NN))) in *.
      assert (HJ : 0 < J) by (apply Z.pow_pos_nonneg; lia).
      set (K := 2 ^ (8 * NN * a_k a)) in *. set (Kf := 2 ^ (8 * NN * a_k f)) in *.
      assert (HKf : 0 <= Kf) by (apply Z.pow_nonneg; lia).
      set (X := 2 ^ (ac_cost ops + 46 * nsyms ops)) in *.
      replace (cost (sym_range m s) + ac_cost ops + 46 * (1 + nsyms ops))
        with ((cost (sym_range m s) + 46) + (ac_cost ops + 46 * nsyms ops)) by ring.
      rewrite Z.pow_add_r by lia. fold X. set (Y := 2 ^ (cost (sym_range m s) + 46)) in *.
      assert (HY : 0 <= Y) by (apply Z.pow_nonneg; lia).
      set (Rf := a_R f ^ NN) in *. set (P := R1 ^ NN) in *.
      assert (IH' : P * Kf <= Rf * K * X).
      { apply Z.mul_le_mono_pos_r with J; [exact HJ|]. lia. }
      apply Z.le_trans with (P * Y * Kf); [apply Z.mul_le_mono_nonneg_r; assumption|].
      apply Z.le_trans with (P * Kf * Y); [apply Z.eq_le_incl; ring|].
      apply Z.le_trans with (Rf * K * X * Y); [apply Z.mul_le_mono_nonneg_r; assumption|apply Z.eq_le_incl; ring].
Qed.

Lemma bernoulli b n : 1 <= b -> 0 <= n -> b ^ n - n * b ^ (n - 1) <= (b - 1) ^ n.
Proof.
  pose proof NN_pos as NNp.
  intros Hb. revert n. apply natlike_ind.
  - rewrite !Z.pow_0_r. lia.
  - intros n Hn IH. rewrite Z.pow_succ_r by lia. rewrite (Z.pow_succ_r (b - 1)) by lia.
    replace (Z.succ n - 1) with n by lia.
    assert (P : 0 <= b ^ n) by (apply Z.pow_nonneg; lia).
    destruct (Z.eq_dec n 0) as [->|N0]; [rewrite !Z.pow_0_r; lia|].
    assert (E : b ^ n = b * b ^ (n - 1)) by (rewrite <- Z.pow_succ_r by lia; f_equal; lia).
    assert (P' : 0 <= b ^ (n - 1)) by (apply Z.pow_nonneg; lia).
    apply Z.le_trans with ((b - 1) * (b ^ n - n * b ^ (n - 1))); [|apply Z.mul_le_mono_nonneg_l; lia].
    set (p := b ^ (n - 1)) in *. rewrite E in *. nia.
Qed.

Lemma full_range : 2 ^ (24 * NN - 1) <= (2 ^ 24 - 1) ^ NN.
Proof.
  pose proof NN_pos as NNp.
  eapply Z.le_trans; [|apply bernoulli; lia]. rewrite <- !Z.pow_mul_r by lia.
  assert (E : NN = 2 ^ 11) by apply NN_val. rewrite E at 3. rewrite <- Z.pow_add_r by lia.
  replace (24 * NN) with (24 * NN - 1 + 1) at 2 by ring. rewrite Z.pow_add_r by lia. change (2 ^ 1) with 2.
  assert (2 ^ (11 + 24 * (NN - 1)) <= 2 ^ (24 * NN - 1)) by (apply Z.pow_le_mono_r; lia). lia.
Qed.

(** Bits left in a frame of [L] bytes. *)
Lemma bits_left_bound L ops : Forall op_ok ops ->
  8 * L - wops_bits ops - 2 - (ac_cost ops + 46 * nsyms ops) / NN <= a_left L (fold_left astep ops a_init).
Proof.
  pose proof NN_pos as NNp.
  intros H. pose proof (range_loss ops H a_init a_init_ok) as I. cbv zeta in I.
  pose proof (asteps_ok ops a_init H a_init_ok) as (HR & _ & Hk & _).
  pose proof (asteps_pos ops a_init) as Ep. set (f := fold_left astep ops a_init) in *.
  unfold a_left. rewrite Ep. change (a_pos a_init) with 0.
  change (a_R a_init) with (2 ^ 24 - 1) in I. change (a_k a_init) with 0 in I.
  rewrite Z.mul_0_r, Z.pow_0_r, Z.mul_1_r in I.
  pose proof (ac_cost_nonneg ops H) as C0. pose proof (nsyms_nonneg ops) as N0.
  set (C := ac_cost ops + 46 * nsyms ops) in *. assert (HC : 0 <= C) by (unfold C; lia). clearbody C.
  unfold range_bits. replace (a_R f <=? 0) with false by lia.
  pose proof (Z.log2_spec (a_R f) ltac:(lia)) as Hl. pose proof (Z.log2_nonneg (a_R f)) as L0.
  set (e := Z.log2 (a_R f)) in *.
  assert (U : a_R f ^ NN < 2 ^ (Z.succ e * NN)).
  { rewrite Z.pow_mul_r by lia. apply Z.pow_lt_mono_l; lia. }
  assert (V : 2 ^ (24 * NN - 1) * 2 ^ (8 * NN * a_k f) < 2 ^ (Z.succ e * NN) * 2 ^ C).
  { eapply Z.le_lt_trans; [apply Z.mul_le_mono_nonneg_r; [apply Z.pow_nonneg; lia|exact full_range]|].
    eapply Z.le_lt_trans; [exact I|]. apply Z.mul_lt_mono_pos_r; [apply Z.pow_pos_nonneg; lia|exact U]. }
  rewrite <- !Z.pow_add_r in V by lia. apply Z.pow_lt_mono_r_iff in V; [|lia|lia].
  assert (W : NN * (23 - e + 8 * a_k f) <= C) by lia.
  assert (23 - e + 8 * a_k f <= C / NN) by (apply Z.div_le_lower_bound; lia). lia.
Qed.
