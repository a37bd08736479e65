(** * Global gain: proofs *)
From Coq Require Import ZArith List Bool Lia ZifyBool.
From Verif Require Import Base BaseProofs ConfigModel FloatModel SpecModel BudgetModel GainModel.
Import ListNotations.
Local Open Scope Z_scope.

Lemma cint_some x : is_int x -> cint x = Some x.
Proof. unfold is_int, cint. intros H. replace ((INT_MIN <=? x) && (x <=? INT_MAX)) with true by lia. reflexivity. Qed.
Lemma cint_inv x y : cint x = Some y -> y = x /\ is_int x.
Proof. unfold cint, is_int. destruct ((INT_MIN <=? x) && (x <=? INT_MAX)) eqn:C; intros H; [|discriminate]. injection H as <-. lia. Qed.

(** ** Offset *)
Lemma gain_offset_range sr nbytes : 0 <= sr < 7 -> 0 <= nbytes -> 110 <= gain_offset sr nbytes <= 255.
Proof.
  intros Hs Hn. unfold gain_offset. set (si := if is_hr sr then _ else _). assert (0 <= si <= 5) by (unfold si, is_hr, SRATE_48K_HR; destruct (5 <=? sr) eqn:C; lia). clearbody si.
  assert (0 <= nbytes * 8 / (10 * (1 + si))) by (apply Z.div_pos; lia). destruct (SRATE_96K_HR <=? sr); lia.
Qed.

(** ** Costs without limits *)
Definition cost1 (d : Z) : Z :=
  if d <? 0 then k_2u7 else if d <? 43 * 2 ^ 16 then d + 7 * 2 ^ 16 else 2 * d - 36 * 2 ^ 16.
(** The blocks, in increasing order, up to the last one that reaches the threshold. *)
Fixpoint cost (gn : Z) (es : list Z) : Z :=
  match es with
  | [] => 0
  | e :: r => (if existsb (fun e => gn <=? e) es then cost1 (e - gn) else 0) + cost gn r
  end.
Fixpoint sum1 (gn : Z) (es : list Z) : Z := match es with [] => 0 | e :: r => cost1 (e - gn) + sum1 gn r end.

Lemma cost1_pos d : 0 < cost1 d.
Proof. unfold cost1, k_2u7. destruct (d <? 0) eqn:A; destruct (d <? 43 * 2 ^ 16) eqn:B; lia. Qed.
Lemma cost1_mono d d' : d <= d' -> cost1 d <= cost1 d'.
Proof. unfold cost1, k_2u7. intros H. destruct (d <? 0) eqn:A; destruct (d <? 43 * 2 ^ 16) eqn:B; destruct (d' <? 0) eqn:A'; destruct (d' <? 43 * 2 ^ 16) eqn:B'; lia. Qed.
Lemma cost1_step d x : 0 <= x -> cost1 (d + x) <= cost1 d + 2 * x + 7 * 2 ^ 16.
Proof. unfold cost1, k_2u7. intros H. destruct (d <? 0) eqn:A; destruct (d <? 43 * 2 ^ 16) eqn:B; destruct (d + x <? 0) eqn:A'; destruct (d + x <? 43 * 2 ^ 16) eqn:B'; lia. Qed.
Lemma cost1_low d x : d < 0 -> 0 <= x -> cost1 (d + x) <= 2 * x + 7 * 2 ^ 16.
Proof. unfold cost1, k_2u7. intros H H'. destruct (d + x <? 0) eqn:A'; destruct (d + x <? 43 * 2 ^ 16) eqn:B'; lia. Qed.

Lemma cost_nonneg gn es : 0 <= cost gn es.
Proof. induction es as [|e r IH]; cbn [cost]; [lia|]. pose proof (cost1_pos (e - gn)). destruct (existsb _ _); lia. Qed.
Lemma cost_mono gn gn' es : gn <= gn' -> cost gn' es <= cost gn es.
Proof.
  intros H. induction es as [|e r IH]; cbn [cost]; [lia|].
  assert (E : existsb (fun e => gn' <=? e) (e :: r) = true -> existsb (fun e => gn <=? e) (e :: r) = true).
  { intros A. apply existsb_exists in A. destruct A as (x & I & Hx). apply existsb_exists. exists x. split; [exact I|lia]. }
  pose proof (cost1_mono (e - gn') (e - gn) ltac:(lia)). pose proof (cost1_pos (e - gn)).
  destruct (existsb (fun e => gn' <=? e) (e :: r)); [rewrite E by reflexivity; lia|]. destruct (existsb (fun e => gn <=? e) (e :: r)); lia.
Qed.
Lemma cost_step gn x es : 0 <= x -> cost (gn - x) es <= cost gn es + zlen es * (2 * x + 7 * 2 ^ 16).
Proof.
  intros H. induction es as [|e r IH]; [cbn; lia|]. cbn [cost]. replace (zlen (e :: r)) with (zlen r + 1) by (unfold zlen; cbn [length]; lia).
  pose proof (cost1_pos (e - gn)).
  assert (A : (if existsb (fun e => gn - x <=? e) (e :: r) then cost1 (e - (gn - x)) else 0) <= (if existsb (fun e => gn <=? e) (e :: r) then cost1 (e - gn) else 0) + (2 * x + 7 * 2 ^ 16)).
  { replace (e - (gn - x)) with (e - gn + x) by lia. destruct (existsb (fun e => gn <=? e) (e :: r)) eqn:E.
    - pose proof (cost1_step (e - gn) x H). clear IH E. destruct (existsb _ _); lia.
    - assert (e - gn < 0) by (cbn [existsb] in E; lia). pose proof (cost1_low (e - gn) x ltac:(lia) H). clear IH E. destruct (existsb _ _); lia. }
  lia.
Qed.
Lemma cost_bound gn es E : (forall e, In e es -> e <= E) -> cost gn es <= zlen es * cost1 (E - gn).
Proof.
  intros H. induction es as [|e r IH]; [cbn; lia|]. cbn [cost]. replace (zlen (e :: r)) with (zlen r + 1) by (unfold zlen; cbn [length]; lia).
  specialize (IH (fun x Hx => H x (or_intror Hx))). pose proof (cost1_mono (e - gn) (E - gn) ltac:(specialize (H e (or_introl eq_refl)); lia)). pose proof (cost1_pos (E - gn)).
  destruct (existsb _ _); lia.
Qed.

Lemma sum1_app gn a b : sum1 gn (a ++ b) = sum1 gn a + sum1 gn b.
Proof. induction a as [|e r IH]; cbn [app sum1]; lia. Qed.
Lemma sum1_rev gn es : sum1 gn (rev es) = sum1 gn es.
Proof. induction es as [|e r IH]; cbn [rev sum1]; [reflexivity|]. rewrite sum1_app. cbn [sum1]. lia. Qed.
Lemma cost_all gn es e : gn <= e -> cost gn (es ++ [e]) = sum1 gn (es ++ [e]).
Proof.
  intros H. induction es as [|x r IH]; cbn [app cost sum1]; [cbn [existsb]; replace (gn <=? e) with true by lia; reflexivity|].
  replace (existsb (fun e => gn <=? e) (x :: r ++ [e])) with true; [lia|]. symmetry. apply existsb_exists. exists e. split; [right; apply in_or_app; right; left; reflexivity|lia].
Qed.
Lemma cost_drop gn es e : e < gn -> cost gn (es ++ [e]) = cost gn es.
Proof.
  intros H. induction es as [|x r IH]; cbn [app cost]; [cbn [existsb]; replace (gn <=? e) with false by lia; reflexivity|].
  replace (existsb (fun e => gn <=? e) (x :: r ++ [e])) with (existsb (fun e => gn <=? e) (x :: r)); [lia|].
  cbn [existsb]. f_equal. rewrite existsb_app. cbn [existsb]. replace (gn <=? e) with false by lia. rewrite !orb_false_r. reflexivity.
Qed.
Lemma skip_cost gn es : sum1 gn (skip_low gn (rev es)) = cost gn es.
Proof.
  induction es as [|e es IH] using rev_ind; [reflexivity|]. rewrite rev_app_distr. cbn [rev app skip_low].
  destruct (e <? gn) eqn:C.
  - rewrite IH. symmetry. apply cost_drop. lia.
  - rewrite cost_all by lia. cbn [sum1]. rewrite sum1_rev, sum1_app. cbn [sum1]. lia.
Qed.
Lemma skip_skip gn gn' es : gn' <= gn -> skip_low gn (skip_low gn' es) = skip_low gn es.
Proof.
  intros H. induction es as [|e r IH]; [reflexivity|]. cbn [skip_low]. destruct (e <? gn') eqn:C.
  - replace (e <? gn) with true by lia. exact IH.
  - reflexivity.
Qed.
Lemma skip_incl gn es e : In e (skip_low gn es) -> In e es.
Proof. induction es as [|x r IH]; cbn [skip_low]; [auto|]. destruct (x <? gn); [right; auto|auto]. Qed.

(** ** Limits of the sums *)
Definition e_max : Z := 12724817.
Definition e_min : Z := -12527534.
Definition energy (e : Z) : Prop := e_min <= e <= e_max.

Lemma block_cost_ok gn e : energy e -> Z.abs gn <= 2 ^ 25 -> block_cost gn e = Some (cost1 (e - gn)).
Proof.
  unfold energy, e_min, e_max. intros He Hg. unfold block_cost, cost1. rewrite cint_some by (unfold is_int, INT_MIN, INT_MAX; lia). cbn [bind].
  destruct (e - gn <? 0) eqn:A; [reflexivity|]. destruct (e - gn <? 43 * 2 ^ 16) eqn:B.
  - apply cint_some. unfold is_int, INT_MIN, INT_MAX. lia.
  - rewrite cint_some by (unfold is_int, INT_MIN, INT_MAX; lia). cbn [bind]. apply cint_some. unfold is_int, INT_MIN, INT_MAX. lia.
Qed.
Lemma sum1_nonneg gn es : 0 <= sum1 gn es.
Proof. induction es as [|e r IH]; cbn [sum1]; [lia|]. pose proof (cost1_pos (e - gn)). lia. Qed.
Lemma sum_costs_spec gn es : (forall e, In e es -> energy e) -> Z.abs gn <= 2 ^ 25 -> forall v, 0 <= v ->
  sum_costs gn es v = if v + sum1 gn es <=? INT_MAX then Some (v + sum1 gn es) else if v <=? INT_MAX then None else sum_costs gn es v.
Proof.
  intros He Hg. induction es as [|e r IH]; intros v Hv; cbn [sum_costs sum1].
  - destruct (v + 0 <=? INT_MAX) eqn:C; [f_equal; lia|]. destruct (v <=? INT_MAX) eqn:C'; [lia|reflexivity].
  - rewrite block_cost_ok by (auto using in_eq). cbn [bind]. pose proof (cost1_pos (e - gn)) as P. pose proof (sum1_nonneg gn r) as P2.
    destruct (v + cost1 (e - gn) <=? INT_MAX) eqn:C.
    + rewrite cint_some by (unfold is_int, INT_MIN, INT_MAX in *; lia). cbn [bind]. rewrite IH by (try lia; intros; apply He; right; assumption).
      rewrite C. replace (v <=? INT_MAX) with true by lia. rewrite Z.add_assoc. reflexivity.
    + replace (v + (cost1 (e - gn) + sum1 gn r) <=? INT_MAX) with false by lia. destruct (v <=? INT_MAX); [|reflexivity].
      unfold cint. replace ((INT_MIN <=? v + cost1 (e - gn)) && (v + cost1 (e - gn) <=? INT_MAX)) with false by lia. reflexivity.
Qed.
Lemma costs_ok gn es : (forall e, In e es -> energy e) -> Z.abs gn <= 2 ^ 25 ->
  sum_costs gn (skip_low gn (rev es)) 0 = if cost gn es <=? INT_MAX then Some (cost gn es) else None.
Proof.
  intros He Hg. rewrite sum_costs_spec; [|intros e I; apply He, in_rev, (skip_incl gn), I|exact Hg|lia].
  rewrite !Z.add_0_l, skip_cost. destruct (cost gn es <=? INT_MAX); [reflexivity|]. reflexivity.
Qed.

(** ** Search *)
Fixpoint steps (k : nat) : list Z := match k with O => [] | S k => 2 ^ Z.of_nat k :: steps k end.
Lemma search_steps_eq : search_steps = steps 8.
Proof. reflexivity. Qed.
Lemma pow_S k : 2 ^ Z.of_nat (S k) = 2 * 2 ^ Z.of_nat k.
Proof. rewrite Nat2Z.inj_succ, Z.pow_succ_r by lia. reflexivity. Qed.

Section Search.
Variables (nbits : Z) (es : list Z).
Hypothesis He : forall e, In e es -> energy e.
Hypothesis Hn : Z.abs nbits <= 6000.
Hypothesis Hl : zlen es <= 240.
Let lim := nbits * k_1u4.
Let C (g : Z) := cost (g * k_20_28) es.

Lemma C_mono g g' : g <= g' -> C g' <= C g.
Proof. intros H. apply cost_mono. unfold k_20_28. lia. Qed.
Lemma C_step g x : 0 <= x <= 64 -> C (g - x) <= C g + 1548200000.
Proof.
  intros H. unfold C. replace ((g - x) * k_20_28) with (g * k_20_28 - x * k_20_28) by lia.
  pose proof (cost_step (g * k_20_28) (x * k_20_28) es ltac:(unfold k_20_28; lia)) as S.
  assert (zlen es * (2 * (x * k_20_28) + 7 * 2 ^ 16) <= 240 * (2 * (64 * k_20_28) + 7 * 2 ^ 16)).
  { apply Z.mul_le_mono_nonneg; unfold k_20_28 in *; try lia. unfold zlen. lia. }
  unfold k_20_28 in *. lia.
Qed.

Lemma search_ok k : forall g esc, (k <= 8)%nat -> -600 <= g - 2 ^ Z.of_nat k -> g <= 300 ->
  (forall gn, (g - 2 ^ Z.of_nat k) * k_20_28 <= gn -> skip_low gn esc = skip_low gn (rev es)) ->
  ((0 < k)%nat -> (k < 8)%nat -> C g <= lim \/ C (g - 2 ^ Z.of_nat (pred k)) <= INT_MAX) ->
  search_gain (steps k) nbits g esc = None /\ k = 8%nat /\ INT_MAX < C (g - 128) \/
  exists g', search_gain (steps k) nbits g esc = Some g' /\ g - 2 ^ Z.of_nat k < g' <= g /\
    (k = 8%nat -> C (g - 128) <= INT_MAX) /\
    (g' = g \/ C g' <= lim) /\ (g' = g - 2 ^ Z.of_nat k + 1 \/ lim < C (g' - 1)).
Proof.
  induction k as [|k IH]; intros g esc Hk Hg Hg' Hs Hc.
  - right. exists g. cbn [steps search_gain]. cbn [Z.of_nat Z.pow]. repeat split; try lia.
  - cbn [steps search_gain]. rewrite pow_S in *. set (i := 2 ^ Z.of_nat k) in *.
    assert (Hi : 1 <= i <= 128). { unfold i. split; [pose proof (Z.pow_pos_nonneg 2 (Z.of_nat k)); lia|]. change 128 with (2 ^ 7). apply Z.pow_le_mono_r; lia. }
    cbn [pred] in Hc. change (2 ^ Z.of_nat k) with i in Hc.
    rewrite cint_some by (unfold is_int, INT_MIN, INT_MAX, k_20_28; lia). cbn [bind].
    rewrite (Hs ((g - i) * k_20_28)) by (unfold k_20_28; lia). rewrite costs_ok by (auto; unfold k_20_28; lia).
    change (cost ((g - i) * k_20_28) es) with (C (g - i)).
    assert (Lim : lim <= 550500000) by (unfold lim, k_1u4; lia).
    assert (CI : C (g - i) <= INT_MAX \/ (S k = 8%nat /\ INT_MAX < C (g - i))).
    { destruct (Nat.eq_dec (S k) 8) as [E|E]; [lia|]. left. destruct (Hc ltac:(lia) ltac:(lia)) as [A|A]; [|exact A].
      assert (i <= 64). { unfold i. change 64 with (2 ^ 6). apply Z.pow_le_mono_r; lia. }
      pose proof (C_step g i ltac:(lia)). unfold INT_MAX. lia. }
    destruct CI as [CI|[K8 CI]].
    2:{ left. replace (C (g - i) <=? INT_MAX) with false by lia. cbn [bind]. split; [reflexivity|]. split; [exact K8|]. replace i with 128 in CI; [exact CI|]. unfold i. injection K8 as ->. reflexivity. }
    right. replace (C (g - i) <=? INT_MAX) with true by lia. cbn [bind].
    rewrite cint_some by (unfold is_int, INT_MIN, INT_MAX, k_1u4; lia). cbn [bind]. change (nbits * k_1u4) with lim.
    assert (K128 : S k = 8%nat -> C (g - 128) <= INT_MAX). { intros K8. replace 128 with i; [exact CI|]. unfold i. injection K8 as ->. reflexivity. }
    destruct (lim <? C (g - i)) eqn:V.
    + destruct (IH g (skip_low ((g - i) * k_20_28) (rev es))) as [(_ & A & _)|(g' & E & R & _ & P1 & P2)]; try lia.
      * intros gn Hgn. apply skip_skip. exact Hgn.
      * intros _ _. right. assert (C (g - 2 ^ Z.of_nat (pred k)) <= C (g - i)); [|lia]. apply C_mono. unfold i. assert (2 ^ Z.of_nat (pred k) <= 2 ^ Z.of_nat k) by (apply Z.pow_le_mono_r; lia). lia.
      * exists g'. split; [exact E|]. fold i in R, P2. split; [lia|]. split; [exact K128|]. split; [exact P1|]. destruct P2 as [P2|P2]; [|right; exact P2]. right. replace (g' - 1) with (g - i) by lia. lia.
    + destruct (IH (g - i) esc) as [(_ & A & _)|(g' & E & R & _ & P1 & P2)]; try lia.
      * fold i. intros gn Hgn. apply Hs. unfold k_20_28 in *. lia.
      * exists g'. split; [exact E|]. fold i in R, P2. split; [lia|]. split; [exact K128|]. split; [right; destruct P1 as [->|P1]; lia|]. destruct P2 as [P2|P2]; [left; lia|right; exact P2].
Qed.
End Search.

Lemma search_min_ok fits k : forall g, let g' := search_min (steps k) fits g in
  g - 2 ^ Z.of_nat k < g' <= g /\ (g' = g \/ fits g' = true) /\ (g' = g - 2 ^ Z.of_nat k + 1 \/ fits (g' - 1) = false).
Proof.
  induction k as [|k IH]; intros g; cbn [steps search_min]; cbv zeta.
  - cbn [Z.of_nat Z.pow]. lia.
  - rewrite pow_S. set (i := 2 ^ Z.of_nat k) in *. assert (0 < i) by (unfold i; apply Z.pow_pos_nonneg; lia).
    specialize (IH (if fits (g - i) then g - i else g)). cbv zeta in IH. set (g' := search_min _ _ _) in *. clearbody g'.
    destruct (fits (g - i)) eqn:E; destruct IH as (R & P1 & P2).
    + split; [lia|]. split; [right; destruct P1 as [->|P1]; assumption|]. destruct P2 as [P2|P2]; [left; lia|right; exact P2].
    + split; [lia|]. split; [exact P1|]. right. destruct P2 as [P2|P2]; [replace (g' - 1) with (g - i) by lia; exact E|exact P2].
Qed.

(** ** Energies *)
Definition db_base (s : Z) : Z := (s / 16) * 49321 + fst (znth db_table (s mod 32) (0, 0)).
Definition db_slope (s : Z) : Z := snd (znth db_table (s mod 32) (0, 0)).
Definition db_value (u : Z) : Z := let v := u / 4 in db_base (v / 2 ^ 16) + (db_slope (v / 2 ^ 16) * (v mod 2 ^ 16)) / 2 ^ 16 - 254 * 49321.

Lemma db_tab : forallb (fun h => let '(a, b) := znth db_table h (0, 0) in
  (0 <=? a) && (a <=? 57701) && (1 <=? b) && (b <=? 4379) && (a + b - 1 <=? db_base (h + 1) - 49321 * (h / 16))) (map Z.of_nat (seq 0 32)) = true.
Proof. vm_compute. reflexivity. Qed.
Lemma db_tab_at h : 0 <= h < 32 -> 0 <= fst (znth db_table h (0, 0)) <= 57701 /\ 1 <= snd (znth db_table h (0, 0)) <= 4379 /\
  fst (znth db_table h (0, 0)) + snd (znth db_table h (0, 0)) - 1 <= db_base (h + 1) - 49321 * (h / 16).
Proof.
  intros H. pose proof db_tab as T. rewrite forallb_forall in T. specialize (T h). cbv beta in T.
  assert (I : In h (map Z.of_nat (seq 0 32))). { apply in_map_iff. exists (Z.to_nat h). split; [lia|]. apply in_seq. lia. }
  specialize (T I). destruct (znth db_table h (0, 0)) as [a b]. cbn [fst snd]. lia.
Qed.
Lemma db_next s : 0 <= s -> db_base s + db_slope s - 1 <= db_base (s + 1).
Proof.
  intros H. pose proof (Z.mod_pos_bound s 32 ltac:(lia)) as B. destruct (db_tab_at (s mod 32) B) as (_ & _ & T).
  unfold db_base at 1, db_slope. set (c := znth db_table (s mod 32) (0, 0)) in *. clearbody c.
  assert (E : db_base (s + 1) = db_base (s mod 32 + 1) + 2 * (s / 32) * 49321).
  { unfold db_base. rewrite (Z.div_mod s 32) at 1 2 by lia. replace (32 * (s / 32) + s mod 32 + 1) with (s mod 32 + 1 + (s / 32) * 32) by lia. rewrite Z.mod_add by lia.
    replace (s mod 32 + 1 + s / 32 * 32) with (s mod 32 + 1 + (2 * (s / 32)) * 16) by lia. rewrite Z.div_add by lia. lia. }
  assert (E2 : s / 16 = s mod 32 / 16 + 2 * (s / 32)).
  { rewrite (Z.div_mod s 32) at 1 by lia. replace (32 * (s / 32) + s mod 32) with (s mod 32 + (2 * (s / 32)) * 16) by lia. apply Z.div_add. lia. }
  lia.
Qed.
Lemma db_slope_bound s : 0 <= s -> 1 <= db_slope s <= 4379.
Proof. intros H. pose proof (Z.mod_pos_bound s 32 ltac:(lia)) as B. destruct (db_tab_at (s mod 32) B) as (_ & T & _). exact T. Qed.
Lemma db_base_mono s : 0 <= s -> forall k, 0 <= k -> db_base s <= db_base (s + k).
Proof.
  intros H k Hk. pattern k. apply natlike_ind; [rewrite Z.add_0_r; lia| |exact Hk].
  intros x Hx IH. pose proof (db_next (s + x) ltac:(lia)). pose proof (db_slope_bound (s + x) ltac:(lia)). replace (s + Z.succ x) with (s + x + 1) by lia. lia.
Qed.
Lemma db_mono u u' : 0 <= u <= u' -> db_value u <= db_value u'.
Proof.
  intros H. unfold db_value. cbv zeta. set (v := u / 4). set (v' := u' / 4). assert (Hv : 0 <= v <= v') by (unfold v, v'; Z.div_mod_to_equations; lia). clearbody v v'. clear H.
  set (s := v / 2 ^ 16). set (s' := v' / 2 ^ 16). pose proof (Z.mod_pos_bound v (2 ^ 16) ltac:(lia)) as L. pose proof (Z.mod_pos_bound v' (2 ^ 16) ltac:(lia)) as L'.
  assert (Hs : 0 <= s <= s') by (unfold s, s'; split; [apply Z.div_pos; lia|apply Z.div_le_mono; lia]).
  pose proof (db_slope_bound s ltac:(lia)) as B. pose proof (db_slope_bound s' ltac:(lia)) as B'.
  destruct (Z.eq_dec s s') as [E|E].
  - rewrite <- E. assert (v mod 2 ^ 16 <= v' mod 2 ^ 16). { pose proof (Z.div_mod v (2 ^ 16)). pose proof (Z.div_mod v' (2 ^ 16)). fold s in H. fold s' in H0. lia. }
    assert ((db_slope s * (v mod 2 ^ 16)) / 2 ^ 16 <= (db_slope s * (v' mod 2 ^ 16)) / 2 ^ 16); [|lia]. apply Z.div_le_mono; [lia|]. apply Z.mul_le_mono_nonneg_l; lia.
  - assert (A : db_base s + db_slope s * (v mod 2 ^ 16) / 2 ^ 16 <= db_base (s + 1)).
    { pose proof (db_next s ltac:(lia)). assert (db_slope s * (v mod 2 ^ 16) / 2 ^ 16 < db_slope s); [|lia]. apply Z.div_lt_upper_bound; [lia|]. rewrite (Z.mul_comm (2 ^ 16)). apply Z.mul_lt_mono_pos_l; lia. }
    pose proof (db_base_mono (s + 1) ltac:(lia) (s' - (s + 1)) ltac:(lia)) as M. replace (s + 1 + (s' - (s + 1))) with s' in M by lia.
    assert (0 <= db_slope s' * (v' mod 2 ^ 16) / 2 ^ 16) by (apply Z.div_pos; [apply Z.mul_nonneg_nonneg; lia|lia]). lia.
Qed.
Lemma db_q16_ok u : 0 <= u < 2 ^ 31 -> db_q16 u = Some (db_value u) /\ energy (db_value u).
Proof.
  intros H. assert (Hv : 0 <= u / 4 < 2 ^ 29) by (Z.div_mod_to_equations; lia).
  assert (En : energy (db_value u)).
  { unfold energy. pose proof (db_mono 0 u ltac:(lia)) as A. pose proof (db_mono u (2 ^ 31 - 1) ltac:(lia)) as B.
    change (db_value 0) with e_min in A. change (db_value (2 ^ 31 - 1)) with e_max in B. lia. }
  split; [|exact En].
  unfold db_q16. unfold shr. change 0x1f with (Z.ones 5). change 0xffff with (Z.ones 16). rewrite !Z.land_ones by lia.
  assert (E1 : u / 2 ^ 22 = u / 4 / 2 ^ 16 / 16) by (rewrite !Z.div_div by lia; reflexivity).
  assert (E2 : u / 2 ^ 18 = u / 4 / 2 ^ 16) by (rewrite !Z.div_div by lia; reflexivity).
  assert (E3 : u / 2 ^ 2 = u / 4) by reflexivity. rewrite E1, E2, E3. change (2 ^ 5) with 32.
  unfold db_value in *. cbv zeta in *. set (v := u / 4) in *. clearbody v. unfold db_base, db_slope in *. set (s := v / 2 ^ 16) in *.
  assert (Hs : 0 <= s < 2 ^ 13) by (unfold s; Z.div_mod_to_equations; lia).
  pose proof (Z.mod_pos_bound v (2 ^ 16) ltac:(lia)) as L. set (lo := v mod 2 ^ 16) in *. clearbody lo.
  assert (Hq : 0 <= s / 16 < 512) by (Z.div_mod_to_equations; lia). set (q := s / 16) in *. clearbody q.
  destruct (db_tab_at (s mod 32) (Z.mod_pos_bound s 32 ltac:(lia))) as (Ba & Bb & _).
  destruct (znth db_table (s mod 32) (0, 0)) as [a b]. cbn [fst snd] in *. clear E1 E2 E3 H Hv Hs.
  assert (0 <= b * lo <= 4379 * 65536) by nia. set (p := b * lo) in *. clearbody p.
  assert (0 <= p / 2 ^ 16 <= 4379) by (Z.div_mod_to_equations; lia). set (pq := p / 2 ^ 16) in *.
  rewrite cint_some by (unfold is_int, INT_MIN, INT_MAX; lia). cbn [bind].
  rewrite cint_some by (unfold is_int, INT_MIN, INT_MAX; lia). cbn [bind].
  rewrite cint_some by (unfold is_int, INT_MIN, INT_MAX; lia). cbn [bind].
  change (p / 2 ^ 16) with pq.
  rewrite cint_some by (unfold is_int, INT_MIN, INT_MAX; lia). f_equal. lia.
Qed.

(** ** Adjustment *)
Lemma adj_delta_ok sr nbits : 0 <= sr < 7 -> 0 <= nbits < 2 ^ 20 -> exists delta, adj_delta sr nbits = Some delta /\ 1 <= delta <= 108.
Proof.
  intros Hs Hn. unfold adj_delta.
  assert (C : sr = 0 \/ sr = 1 \/ sr = 2 \/ sr = 3 \/ sr = 4 \/ sr = 5 \/ sr = 6) by lia.
  assert (T : exists t0 t1 t2, znth adj_table sr (0, 0, 0) = (t0, t1, t2) /\ 80 <= t0 <= 830 /\ t0 + 400 <= t1 <= 3125 /\ t1 + 300 <= t2 <= 5100 /\ 3 * (t0 + 48) <= t1).
  { destruct C as [->|[->|[->|[->|[->|[->| ->]]]]]]; cbv [znth adj_table Z.ltb Z.compare Z.to_nat Pos.to_nat Pos.iter_op Nat.add nth]; do 3 eexists; (split; [reflexivity|lia]). }
  destruct T as (t0 & t1 & t2 & E & H0 & H1 & H2 & H3). rewrite E. clear C E.
  assert (Q : forall d den, 0 <= d -> 48 <= den -> 24 * den <= 48 * d + 24 * den -> den <= 2 * d -> d <= 107 * den -> Z.quot den 2 = den / 2 ->
     exists delta, (if den =? 0 then None else cint (Z.quot (d + Z.quot den 2) den)) = Some delta /\ 1 <= delta <= 108).
  { intros d den Hd Hden _ Hlo Hhi Eq. replace (den =? 0) with false by lia. rewrite Eq. assert (0 <= den / 2) by (apply Z.div_pos; lia). assert (2 * (den / 2) <= den <= 2 * (den / 2) + 1) by (Z.div_mod_to_equations; lia).
    rewrite Z.quot_div_nonneg by lia. assert (1 <= (d + den / 2) / den <= 108).
    { split; [apply Z.div_le_lower_bound; lia|]. apply Z.lt_succ_r. apply Z.div_lt_upper_bound; lia. }
    exists ((d + den / 2) / den). rewrite cint_some by (unfold is_int, INT_MIN, INT_MAX; lia). split; [reflexivity|assumption]. }
  assert (Eq : forall den, 0 <= den -> Z.quot den 2 = den / 2) by (intros; apply Z.quot_div_nonneg; lia).
  destruct (nbits <? t0) eqn:A.
  - rewrite cint_some by (unfold is_int, INT_MIN, INT_MAX; lia). cbn [bind]. apply Q; try lia. apply Eq. lia.
  - destruct (nbits <? t1) eqn:B.
    + assert (X : 0 <= (nbits - t0) * (t1 - 3 * (t0 + 48)) <= (t1 - t0) * 3125).
      { split; [apply Z.mul_nonneg_nonneg; lia|]. apply Z.mul_le_mono_nonneg; lia. }
      assert (Y : 384 * (t1 - t0) <= 3 * (t0 + 48) * (t1 - t0) <= 2634 * (t1 - t0)) by (split; apply Z.mul_le_mono_nonneg_r; lia).
      set (y := 3 * (t0 + 48) * (t1 - t0)) in *. set (x := (nbits - t0) * (t1 - 3 * (t0 + 48))) in *.
      assert (XY : x + y <= (t1 - t0) * 4250).
      { unfold x, y. assert ((nbits - t0) * (t1 - 3 * (t0 + 48)) <= (t1 - t0) * (t1 - 3 * (t0 + 48))) by (apply Z.mul_le_mono_nonneg_r; lia).
        assert ((t1 - t0) * t1 <= (t1 - t0) * 4250) by (apply Z.mul_le_mono_nonneg_l; lia). lia. }
      clearbody x y.
      rewrite cint_some by (unfold is_int, INT_MIN, INT_MAX; lia). cbn [bind].
      rewrite cint_some by (unfold is_int, INT_MIN, INT_MAX; lia). cbn [bind].
      rewrite cint_some by (unfold is_int, INT_MIN, INT_MAX; lia). cbn [bind]. apply Q; try lia. apply Eq. lia.
    + cbn [bind]. apply Q; try lia. apply Eq. lia.
Qed.

Lemma adjust_ok dt sr g nbits budget gm : 0 <= dt <= 3 -> 0 <= sr < 7 -> 0 <= nbits < 2 ^ 20 -> -5000 <= budget <= 5000 -> 0 <= gm <= g -> g <= 255 ->
  exists a, adjust_gain dt sr g nbits budget gm = Some a /\ gm <= g + a <= 255 /\ (budget < nbits -> 0 <= a /\ (g < 255 -> 0 < a)) /\ (nbits <= budget -> -1 <= a <= 0).
Proof.
  intros Hd Hs Hn Hb Hm Hg. destruct (adj_delta_ok sr nbits Hs Hn) as (delta & E & Hdelta). unfold adjust_gain. rewrite E. cbn [bind].
  destruct (is_hr sr && (budget <? nbits)) eqn:A.
  - set (factor := 1 + _ + _). assert (Hf : 1 <= factor <= 4). { unfold factor, b2z. destruct (dt <=? DT_5M), (dt <=? DT_2M5), (520 <=? nbits); lia. } clearbody factor.
    rewrite cint_some by (unfold is_int, INT_MIN, INT_MAX; lia). cbn [bind].
    assert (Hp : 0 <= factor * (nbits - budget) <= 4 * (2 ^ 20 + 5000)) by (split; [apply Z.mul_nonneg_nonneg; lia|apply Z.mul_le_mono_nonneg; lia]).
    set (p := factor * (nbits - budget)) in *. clearbody p.
    rewrite cint_some by (unfold is_int, INT_MIN, INT_MAX; lia). cbn [bind]. replace (delta =? 0) with false by lia.
    rewrite Z.quot_div_nonneg by lia. assert (0 <= p / delta) by (apply Z.div_pos; lia). assert (p / delta <= p) by (apply Z.div_le_upper_bound; nia).
    rewrite cint_some by (unfold is_int, INT_MIN, INT_MAX; lia). cbn [bind].
    rewrite cint_some by (unfold is_int, INT_MIN, INT_MAX; lia). cbn [bind]. eexists. split; [reflexivity|]. lia.
  - destruct (negb (is_hr sr) && (nbits <? budget - (delta + 2))) eqn:B; [|destruct (negb (is_hr sr) && (budget <? nbits)) eqn:D].
    + eexists. split; [reflexivity|]. unfold b2z. destruct (gm <? g) eqn:F; lia.
    + eexists. split; [reflexivity|]. unfold b2z. destruct (g <? 255) eqn:F; destruct ((g <? 254) && (budget + delta <=? nbits)) eqn:F2; lia.
    + exists 0. split; [reflexivity|]. destruct (is_hr sr); lia.
Qed.

(** ** Count of significants *)
Definition sig_at (sig : list (bool * bool)) (k : Z) : bool := let '(a, b) := nth (Z.to_nat k) sig (false, false) in a || b.
Lemma count_nq_ok ne sig : forall n, let t := count_nq ne n sig in
  (t = n - 2 * zlen sig /\ (forall k, 0 <= k < zlen sig -> sig_at sig k = false)) \/
  (exists k, 0 <= k < zlen sig /\ t = ne - 2 * (zlen sig - 1 - k) /\ sig_at sig k = true /\ forall k', k < k' < zlen sig -> sig_at sig k' = false).
Proof.
  induction sig as [|[a b] r IH]; intros n; cbn [count_nq]; cbv zeta.
  - left. split; [cbn; lia|]. intros k Hk. unfold zlen in Hk. cbn in Hk. lia.
  - assert (Z1 : zlen ((a, b) :: r) = zlen r + 1) by (unfold zlen; cbn [length]; lia). rewrite Z1.
    assert (Z0 : 0 <= zlen r) by (unfold zlen; lia).
    assert (S : forall k, 0 < k -> sig_at ((a, b) :: r) k = sig_at r (k - 1)).
    { intros k Hk. unfold sig_at. replace (Z.to_nat k) with (S (Z.to_nat (k - 1))) by lia. reflexivity. }
    destruct (IH (if a || b then ne else n - 2)) as [[E A]|(k & Hk & E & A & B)]; cbv zeta in E.
    + destruct (a || b) eqn:O.
      * right. exists 0. split; [lia|]. split; [lia|]. split; [exact O|]. intros k' Hk'. rewrite S by lia. apply A. lia.
      * left. split; [lia|]. intros k Hk. destruct (Z.eq_dec k 0) as [->|C]; [exact O|]. rewrite S by lia. apply A. lia.
    + right. exists (k + 1). split; [lia|]. split; [lia|]. split; [rewrite S by lia; replace (k + 1 - 1) with k by lia; exact A|].
      intros k' Hk'. rewrite S by lia. apply B. lia.
Qed.
