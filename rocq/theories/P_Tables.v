(** * Property C14: probability tables *)
From Coq Require Import ZArith List Bool Lia.
From Verif Require Import Base Tables BitsModel BitsWriteSafe TableProofs.
Import ListNotations.
Local Open Scope Z_scope.

(** A model is a partition of [0, 1024) in 17 consecutive intervals. *)
Definition partition (m : model) : Prop :=
  length m = 17%nat /\ fst (nth 0 m (0, 0)) = 0 /\
  (forall s, (s < 16)%nat ->
     fst (nth (S s) m (0, 0)) = fst (nth s m (0, 0)) + snd (nth s m (0, 0))) /\
  fst (nth 16 m (0, 0)) + snd (nth 16 m (0, 0)) = 1024 /\
  (forall s, (s < 17)%nat -> 0 <= snd (nth s m (0, 0))).

Lemma wf_partition m : wf_model m -> partition m.
Proof.
  unfold wf_model, partition, sym_low, sym_range, znth, zlen.
  intros (H1 & H2 & H3 & H4 & H5). cbn [Z.ltb Z.compare Z.to_nat] in H2, H4.
  split; [lia|]. split; [exact H2|]. split; [|split; [exact H4|]].
  - intros s Hs. specialize (H3 (Z.of_nat s) ltac:(lia)).
    replace (Z.of_nat s + 1 <? 0) with false in H3 by (symmetry; apply Z.ltb_ge; lia).
    replace (Z.of_nat s <? 0) with false in H3 by (symmetry; apply Z.ltb_ge; lia).
    rewrite Nat2Z.id in H3. replace (Z.to_nat (Z.of_nat s + 1)) with (S s) in H3 by lia.
    exact H3.
  - intros s Hs. specialize (H5 (Z.of_nat s) ltac:(lia)).
    replace (Z.of_nat s <? 0) with false in H5 by (symmetry; apply Z.ltb_ge; lia).
    rewrite Nat2Z.id in H5. exact H5.
Qed.

Theorem C14_models_partition :
  (forall m, In m spectrum_models -> partition m) /\
  (forall m, In m tns_order_models -> partition m) /\
  (forall m, In m tns_coeffs_models -> partition m).
Proof.
  exact (conj (fun m H => wf_partition m (spectrum_models_wf m H))
        (conj (fun m H => wf_partition m (tns_order_models_wf m H))
              (fun m H => wf_partition m (tns_coeffs_models_wf m H)))).
Qed.
Print Assumptions C14_models_partition.

(** Symbols the encoder emits: 17 for spectrum and TNS coefficients, the 8
    orders for the TNS order. The other "orders" can not be decoded. *)
Theorem C14_symbols_nonempty :
  (forall m s, In m spectrum_models -> 0 <= s <= 16 -> 0 < sym_range m s) /\
  (forall m s, In m tns_coeffs_models -> 0 <= s <= 16 -> 0 < sym_range m s) /\
  (forall m s, In m tns_order_models -> 0 <= s <= 7 -> 0 < sym_range m s) /\
  (forall m s, In m tns_order_models -> 8 <= s <= 16 -> sym_range m s = 0).
Proof.
  exact (conj spectrum_models_pos (conj tns_coeffs_models_pos
        (conj tns_order_models_pos tns_order_models_zero))).
Qed.
Print Assumptions C14_symbols_nonempty.

(** Costs are exactly [ceil (2048 * log2 (1024 / range))]; see [is_cost]. *)
Theorem C14_costs :
  (forall i s, 0 <= i < 64 -> 0 <= s < 17 ->
     is_cost (sym_range (znth spectrum_models i []) s) (znth (znth spectrum_bits i []) s 0)) /\
  (forall i s, 0 <= i < 8 -> 0 <= s < 17 ->
     is_cost (sym_range (znth tns_coeffs_models i []) s) (znth (znth tns_coeffs_bits i []) s 0)) /\
  (forall i s, 0 <= i < 2 -> 0 <= s < 8 ->
     is_cost (sym_range (znth tns_order_models i []) s) (znth (znth tns_order_bits i []) s 0)).
Proof.
  exact (conj (chk_costs_ok 17 _ _ spectrum_costs)
        (conj (chk_costs_ok 17 _ _ tns_coeffs_costs) (chk_costs_ok 8 _ _ tns_order_costs))).
Qed.
Print Assumptions C14_costs.

Example C14_example :
  sym_range (znth spectrum_models 0 []) 2 = 175 /\
  znth (znth spectrum_bits 0 []) 2 0 = 5220 /\ zlen spectrum_models = 64.
Proof. vm_compute. auto. Qed.
