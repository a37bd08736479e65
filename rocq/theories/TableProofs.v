(** * The probability tables are well formed *)
From Coq Require Import ZArith List Bool Lia ZifyBool.
From Verif Require Import Base BaseProofs Tables BitsModel BitsWriteSafe.
Import ListNotations.
Local Open Scope Z_scope.

(** Boolean check of [wf_model]. *)
Definition chk_model (m : model) : bool :=
  (zlen m =? 17) && (sym_low m 0 =? 0) &&
  forallb (fun s => sym_low m (s + 1) =? sym_low m s + sym_range m s)
    [0;1;2;3;4;5;6;7;8;9;10;11;12;13;14;15] &&
  (sym_low m 16 + sym_range m 16 =? 1024) &&
  forallb (fun s => 0 <=? sym_range m s) [0;1;2;3;4;5;6;7;8;9;10;11;12;13;14;15;16].

Lemma in_16 s : 0 <= s < 16 -> In s [0;1;2;3;4;5;6;7;8;9;10;11;12;13;14;15].
Proof. intros H. cbn [In]. lia. Qed.

Lemma in_17 s : 0 <= s <= 16 -> In s [0;1;2;3;4;5;6;7;8;9;10;11;12;13;14;15;16].
Proof. intros H. cbn [In]. lia. Qed.

Lemma chk_model_wf m : chk_model m = true -> wf_model m.
Proof.
  unfold chk_model. intros H. apply andb_true_iff in H. destruct H as [H H5].
  apply andb_true_iff in H. destruct H as [H H4].
  apply andb_true_iff in H. destruct H as [H H3].
  apply andb_true_iff in H. destruct H as [H1 H2].
  rewrite forallb_forall in H3, H5.
  split; [lia|]. split; [lia|]. split; [|split; [lia|]].
  - intros s Hs. specialize (H3 s (in_16 s Hs)). cbv beta in H3. lia.
  - intros s Hs. specialize (H5 s (in_17 s Hs)). cbv beta in H5. lia.
Qed.

Lemma chk_models ms : forallb chk_model ms = true -> forall m, In m ms -> wf_model m.
Proof. intros H m Hm. rewrite forallb_forall in H. apply chk_model_wf. auto. Qed.

Lemma znth_In {A} (l : list A) d i : 0 <= i < zlen l -> In (znth l i d) l.
Proof.
  intros H. unfold znth, zlen in *. replace (i <? 0) with false by lia.
  apply nth_In. lia.
Qed.

Lemma spectrum_models_wf : forall m, In m spectrum_models -> wf_model m.
Proof. apply chk_models. vm_compute. reflexivity. Qed.
Lemma tns_order_models_wf : forall m, In m tns_order_models -> wf_model m.
Proof. apply chk_models. vm_compute. reflexivity. Qed.
Lemma tns_coeffs_models_wf : forall m, In m tns_coeffs_models -> wf_model m.
Proof. apply chk_models. vm_compute. reflexivity. Qed.

Definition all_pos (n : nat) (m : model) : bool :=
  forallb (fun s => 0 <? sym_range m (Z.of_nat s)) (seq 0 n).

Lemma all_pos_spec n ms : forallb (all_pos n) ms = true ->
  forall m s, In m ms -> 0 <= s < Z.of_nat n -> 0 < sym_range m s.
Proof.
  intros H m s Hm Hs. rewrite forallb_forall in H. specialize (H m Hm).
  unfold all_pos in H. rewrite forallb_forall in H.
  specialize (H (Z.to_nat s)). cbv beta in H. rewrite Z2Nat.id in H by lia.
  apply Z.ltb_lt. apply H. apply in_seq. lia.
Qed.

Lemma spectrum_models_pos : forall m s, In m spectrum_models -> 0 <= s <= 16 -> 0 < sym_range m s.
Proof.
  intros m s Hm Hs. apply (all_pos_spec 17 spectrum_models); [vm_compute; reflexivity|exact Hm|lia].
Qed.
Lemma tns_coeffs_models_pos : forall m s, In m tns_coeffs_models -> 0 <= s <= 16 -> 0 < sym_range m s.
Proof.
  intros m s Hm Hs. apply (all_pos_spec 17 tns_coeffs_models); [vm_compute; reflexivity|exact Hm|lia].
Qed.
Lemma tns_order_models_pos : forall m s, In m tns_order_models -> 0 <= s <= 7 -> 0 < sym_range m s.
Proof.
  intros m s Hm Hs. apply (all_pos_spec 8 tns_order_models); [vm_compute; reflexivity|exact Hm|lia].
Qed.
Lemma tns_order_models_zero : forall m s, In m tns_order_models -> 8 <= s <= 16 -> sym_range m s = 0.
Proof.
  intros m s Hm Hs.
  assert (H : forallb (fun m => forallb (fun s => sym_range m s =? 0) [8;9;10;11;12;13;14;15;16])
    tns_order_models = true) by (vm_compute; reflexivity).
  rewrite forallb_forall in H. specialize (H m Hm). cbv beta in H.
  rewrite forallb_forall in H. apply Z.eqb_eq. apply H. cbn [In]. lia.
Qed.

(** ** Costs: the least number of 1/2048 bit that covers the interval,
    that is [c = ceil (2048 * log2 (1024 / range))]. *)
Definition is_cost (range c : Z) : Prop :=
  1 <= range /\ 0 <= c /\ 2 ^ 20480 <= 2 ^ c * range ^ 2048 /\
  (0 < c -> 2 ^ (c - 1) * range ^ 2048 < 2 ^ 20480).

(** Powers are bounded by dyadic intervals [lo * 2^e, hi * 2^e]. *)
Definition sq3 (x : Z * Z * Z) : Z * Z * Z :=
  let '(lo, hi, e) := x in
  let s := Z.max 0 (Z.log2 (hi * hi) - 25) in
  (lo * lo / 2 ^ s, - (- (hi * hi) / 2 ^ s), 2 * e + s).

Definition in3 (x : Z * Z * Z) (X : Z) : Prop :=
  let '(lo, hi, e) := x in 0 <= e /\ 0 <= lo /\ lo * 2 ^ e <= X <= hi * 2 ^ e.

Lemma sq3_ok x X : in3 x X -> in3 (sq3 x) (X ^ 2).
Proof.
  destruct x as [[lo hi] e]. unfold sq3, in3. intros (He & Hlo & H1 & H2).
  set (s := Z.max 0 (Z.log2 (hi * hi) - 25)). assert (Hs : 0 <= s) by lia. clearbody s.
  pose proof (pow2_pos s Hs) as Hps. pose proof (pow2_pos e He) as Hpe.
  pose proof (Z.mul_div_le (lo * lo) (2 ^ s) Hps) as D1.
  pose proof (Z.mul_div_le (- (hi * hi)) (2 ^ s) Hps) as D2.
  assert (D0 : 0 <= lo * lo / 2 ^ s) by (apply Z.div_pos; nia).
  set (q := lo * lo / 2 ^ s) in *. set (q' := - (hi * hi) / 2 ^ s) in *. clearbody q q'.
  replace (2 * e + s) with (e + e + s) by lia. rewrite !Z.pow_add_r by lia.
  set (E := 2 ^ e) in *. set (S := 2 ^ s) in *. clearbody E S.
  assert (Hl : 0 <= lo * E) by nia.
  assert (Q1 : (lo * E) * (lo * E) <= X * X) by nia.
  assert (Q2 : X * X <= (hi * E) * (hi * E)) by nia.
  rewrite Z.pow_2_r. split; [lia|]. split; [exact D0|]. split.
  - apply Z.le_trans with ((lo * E) * (lo * E)); [|exact Q1].
    replace (q * (E * E * S)) with (S * q * (E * E)) by ring.
    replace (lo * E * (lo * E)) with (lo * lo * (E * E)) by ring. nia.
  - apply Z.le_trans with ((hi * E) * (hi * E)); [exact Q2|].
    replace (- q' * (E * E * S)) with (- (S * q') * (E * E)) by ring.
    replace (hi * E * (hi * E)) with (hi * hi * (E * E)) by ring. nia.
Qed.

Definition pow2048 (r : Z) : Z * Z * Z := Nat.iter 11 sq3 (r, r, 0).

Lemma iter_sq3_ok n : forall x X, in3 x X -> in3 (Nat.iter n sq3 x) (X ^ (2 ^ Z.of_nat n)).
Proof.
  induction n as [|n IH]; intros x X H.
  - cbn [Nat.iter nat_rect]. change (2 ^ Z.of_nat 0) with 1. rewrite Z.pow_1_r. exact H.
  - rewrite Nat2Z.inj_succ, Z.pow_succ_r by lia. rewrite Z.mul_comm.
    rewrite Z.pow_mul_r by (try apply Z.pow_nonneg; lia).
    apply (sq3_ok _ _ (IH x X H)).
Qed.

Lemma pow2048_ok r : 0 <= r -> in3 (pow2048 r) (r ^ 2048).
Proof.
  intros H. apply (iter_sq3_ok 11 (r, r, 0) r). cbn. lia.
Qed.

Definition chk_cost (range c : Z) : bool :=
  let '(lo, hi, e) := pow2048 range in
  (1 <=? range) && (1 <=? c) && (c - 1 + e <=? 20480) &&
  (2 ^ Z.max 0 (20480 - c - e) <=? lo) && (hi <? 2 ^ (20480 - (c - 1) - e)).

Lemma chk_cost_ok range c : chk_cost range c = true -> is_cost range c.
Proof.
  unfold chk_cost, is_cost. intros H.
  assert (Hr : 0 <= range).
  { destruct (pow2048 range) as [[lo hi] e]. lia. }
  pose proof (pow2048_ok range Hr) as Hp. destruct (pow2048 range) as [[lo hi] e].
  unfold in3 in Hp. destruct Hp as (He & Hlo & H1 & H2).
  apply andb_true_iff in H. destruct H as [H C5].
  apply andb_true_iff in H. destruct H as [H C4].
  apply andb_true_iff in H. destruct H as [H C3].
  apply andb_true_iff in H. destruct H as [C1 C2].
  apply Z.leb_le in C1, C2, C3, C4. apply Z.ltb_lt in C5.
  assert (Ht : 0 <= 20480) by lia.
  assert (Hw : 20480 = c + e + (20480 - c - e)) by lia.
  revert H1 H2. generalize (range ^ 2048) as X. intros X H1 H2.
  revert Hw C3 C4 C5 Ht. generalize 20480 as T. intros T Hw C3 C4 C5 Ht.
  split; [lia|]. split; [lia|].
  pose proof (pow2_pos e He) as Pe. pose proof (pow2_pos c ltac:(lia)) as Pc.
  split.
  - apply Z.le_trans with (2 ^ (c + e + Z.max 0 (T - c - e))).
    + apply Z.pow_le_mono_r; lia.
    + rewrite !Z.pow_add_r by lia. rewrite <- Z.mul_assoc.
      apply Z.mul_le_mono_nonneg_l; [lia|]. nia.
  - intros _. pose proof (pow2_pos (c - 1) ltac:(lia)) as Pc1.
    replace T with (c - 1 + (e + (T - (c - 1) - e))) at 1 by lia.
    rewrite (Z.pow_add_r 2 (c - 1)) by lia.
    apply Z.mul_lt_mono_pos_l; [lia|]. rewrite Z.pow_add_r by lia. nia.
Qed.

Definition chk_costs (n : nat) (ms : list model) (cs : list (list Z)) : bool :=
  (zlen ms =? zlen cs) &&
  forallb (fun '(m, c) => (zlen c =? Z.of_nat n) &&
     forallb (fun s => chk_cost (sym_range m (Z.of_nat s)) (nth s c 0)) (seq 0 n))
    (combine ms cs).

Lemma chk_costs_ok n ms cs : chk_costs n ms cs = true ->
  forall i s, 0 <= i < zlen ms -> 0 <= s < Z.of_nat n ->
  is_cost (sym_range (znth ms i []) s) (znth (znth cs i []) s 0).
Proof.
  unfold chk_costs. intros H i s Hi Hs. apply andb_true_iff in H. destruct H as [Hl H].
  apply Z.eqb_eq in Hl. rewrite forallb_forall in H.
  specialize (H (znth ms i [], znth cs i [])). cbv beta iota in H.
  assert (Hin : In (znth ms i [], znth cs i []) (combine ms cs)).
  { unfold znth, zlen in *. replace (i <? 0) with false by lia.
    rewrite <- combine_nth by lia. apply nth_In. rewrite combine_length. lia. }
  specialize (H Hin). apply andb_true_iff in H. destruct H as [_ H].
  rewrite forallb_forall in H. specialize (H (Z.to_nat s)). cbv beta in H.
  rewrite Z2Nat.id in H by lia. apply chk_cost_ok. unfold znth at 2.
  replace (s <? 0) with false by lia. apply H. apply in_seq. lia.
Qed.

Lemma spectrum_costs : chk_costs 17 spectrum_models spectrum_bits = true.
Proof. vm_compute. reflexivity. Qed.
Lemma tns_coeffs_costs : chk_costs 17 tns_coeffs_models tns_coeffs_bits = true.
Proof. vm_compute. reflexivity. Qed.
Lemma tns_order_costs : chk_costs 8 tns_order_models tns_order_bits = true.
Proof. vm_compute. reflexivity. Qed.

(** ** The context lookup only names models of the table *)
Lemma spectrum_lookup_ok :
  forallb (fun t => forallb (fun t => forallb (fun t => (zlen t =? 4) &&
     forallb (fun i => (0 <=? i) && (i <? 64)) t) t && (zlen t =? 256)) t && (zlen t =? 2))
   spectrum_lookup = true /\ zlen spectrum_lookup = 2 /\ zlen spectrum_models = 64.
Proof. split; [|split]; vm_compute; reflexivity. Qed.
