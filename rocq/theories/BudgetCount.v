(** * The counts of [compute_nbits] against the operations of the coder *)
From Coq Require Import ZArith List Bool Lia ZifyBool.
From Verif Require Import Base BaseProofs Tables TableProofs BitsModel BitsWriteSafe BitsAbstract BitsRoundTrip.
From Verif Require Import ConfigModel SideModel SideProofs SpecModel SpecSpec SpecProofs SpecPairs SpecFrame FrameProofs.
From Verif Require Import BudgetModel BudgetSpec BudgetProofs.
Import ListNotations.
Local Open Scope Z_scope.

(** ** The tables are the costs *)
Definition chk_bits (n : nat) (ms : list model) (cs : list (list Z)) : bool :=
  (zlen ms =? zlen cs) &&
  forallb (fun '(m, c) => forallb (fun s => cost (sym_range m (Z.of_nat s)) =? nth s c 0) (seq 0 n)) (combine ms cs).

Lemma chk_bits_ok n ms cs : chk_bits n ms cs = true -> forall i s, 0 <= i < zlen ms -> 0 <= s < Z.of_nat n ->
  cost (sym_range (znth ms i []) s) = znth (znth cs i []) s 0.
Proof.
  unfold chk_bits. intros H i s Hi Hs. apply andb_true_iff in H. destruct H as [Hl H].
  apply Z.eqb_eq in Hl. rewrite forallb_forall in H.
  specialize (H (znth ms i [], znth cs i [])). cbv beta iota in H.
  assert (Hin : In (znth ms i [], znth cs i []) (combine ms cs)).
  { unfold znth, zlen in *. replace (i <? 0) with false by lia.
    rewrite <- combine_nth by lia. apply nth_In. rewrite combine_length. lia. }
  specialize (H Hin). rewrite forallb_forall in H. specialize (H (Z.to_nat s)). cbv beta in H.
  rewrite Z2Nat.id in H by lia. unfold znth at 2.
  replace (s <? 0) with false by lia. apply Z.eqb_eq, H. apply in_seq. lia.
Qed.

Lemma spectrum_bits_cost : chk_bits 17 spectrum_models spectrum_bits = true.
Proof. vm_compute. reflexivity. Qed.
Lemma tns_coeffs_bits_cost : chk_bits 17 tns_coeffs_models tns_coeffs_bits = true.
Proof. vm_compute. reflexivity. Qed.
Lemma tns_order_bits_cost : chk_bits 8 tns_order_models tns_order_bits = true.
Proof. vm_compute. reflexivity. Qed.

Lemma spec_bits_cost lut k s : LutOk lut -> 0 <= k < 4 -> 0 <= s <= 16 ->
  spec_bits lut k s = cost (sym_range (spec_model lut k) s).
Proof.
  intros Hl Hk Hs. symmetry. destruct spectrum_lookup_ok as (_ & _ & E).
  specialize (Hl k Hk).
  apply (chk_bits_ok 17 _ _ spectrum_bits_cost); [split; [apply Hl|eapply Z.lt_le_trans; [apply Hl|apply Z.eq_le_incl; symmetry; exact E]]|lia].
Qed.

(** ** Estimated cost of operations *)
Definition est (ops : list wop) : Z := 2048 * wops_bits ops + ac_cost ops.
Lemma est_app a b : est (a ++ b) = est a + est b.
Proof. unfold est. rewrite wops_bits_app, ac_cost_app. lia. Qed.
Lemma est_nil : est [] = 0. Proof. reflexivity. Qed.
Lemma est_bits v n ops : est (PutBits v n :: ops) = 2048 * n + est ops.
Proof. unfold est. cbn [wops_bits ac_cost fold_right wop_bits op_cost]. fold (wops_bits ops) (ac_cost ops). lia. Qed.
Lemma est_sym m s ops : est (PutSym m s :: ops) = cost (sym_range m s) + est ops.
Proof. unfold est. cbn [wops_bits ac_cost fold_right wop_bits op_cost]. fold (wops_bits ops) (ac_cost ops). lia. Qed.
Lemma est_nonneg ops : Forall op_ok ops -> 0 <= est ops.
Proof. intros H. unfold est. pose proof (wops_bits_nonneg ops H). pose proof (ac_cost_nonneg ops H). lia. Qed.

Definition esc_cost (lut : Z -> Z) (a b j : Z) : Z := cost (sym_range (spec_model lut (Z.min j 3)) (sym_at a b j)).

Lemma est_esc n lut a b j : est (esc_w (S n) lut a b j) = 4096 + esc_cost lut a b j + est (esc_w n lut a b (j + 1)).
Proof.
  cbn [esc_w]. rewrite est_app. unfold bit_ops, sym_op. rewrite !est_bits, est_sym, est_nil. unfold esc_cost. lia.
Qed.

Lemma esc_cost_16 lut a b j : LutOk lut -> 0 <= j < nesc a b -> esc_cost lut a b j = spec_bits lut (Z.min j 3) 16.
Proof.
  intros Hl Hj. unfold esc_cost. rewrite spec_bits_cost by (auto; lia). unfold sym_at.
  replace (j <? nesc a b) with true by lia. reflexivity.
Qed.

Lemma nbits_escapes_est fuel : forall lut a b k nb, LutOk lut -> 0 <= a -> 0 <= b -> 0 <= k <= nesc a b ->
  nesc a b - k < Z.of_nat fuel ->
  nbits_escapes fuel lut (shr (Z.lor a b) (2 + k)) k nb =
  (nb + est (esc_w (Z.to_nat (nesc a b - k)) lut a b k) - 4096 * (nesc a b - k), nesc a b).
Proof.
  induction fuel as [|fuel IH]; intros lut a b k nb Hl Ha Hb Hk Hf; [lia|].
  cbn [nbits_escapes]. rewrite nesc_m by lia.
  destruct (nesc a b <=? k) eqn:E.
  - replace (nesc a b - k) with 0 by lia. cbn [Z.to_nat esc_w]. rewrite est_nil. f_equal; lia.
  - rewrite shr_shr by lia. replace (2 + k + 1) with (2 + (k + 1)) by lia.
    rewrite IH by (auto; lia).
    replace (Z.to_nat (nesc a b - k)) with (S (Z.to_nat (nesc a b - (k + 1)))) by lia.
    rewrite est_esc, esc_cost_16 by (auto; lia). f_equal. lia.
Qed.

(** Bits that the LSB mode sets aside. *)
Definition lsbn (x0 x1 : Z) : Z :=
  if 0 <? nesc (Z.abs x0) (Z.abs x1) then 2 + b2z (Z.abs x0 =? 1) + b2z (Z.abs x1 =? 1) else 0.
Definition nonz (x0 x1 : Z) : Z := b2z (negb (Z.abs x0 =? 0)) + b2z (negb (Z.abs x1 =? 0)).
Definition escd (x0 x1 : Z) : Z := if 0 <? nesc (Z.abs x0) (Z.abs x1) then 4096 else 0.

Lemma b2z_range b : 0 <= b2z b <= 1. Proof. destruct b; cbn; lia. Qed.

Lemma escd_lsbn x0 x1 : 0 <= escd x0 x1 <= 2048 * lsbn x0 x1.
Proof.
  unfold escd, lsbn. pose proof (b2z_range (Z.abs x0 =? 1)). pose proof (b2z_range (Z.abs x1 =? 1)).
  destruct (0 <? nesc _ _); lia.
Qed.

Lemma est_sign x y : est (sign_op x y) = 2048 * b2z (negb (y =? 0)).
Proof. unfold sign_op. destruct (y =? 0); cbn [negb b2z]; rewrite ?est_bits, ?est_nil; lia. Qed.

Lemma msb_part_false a b x : msb_part false a b x = x. Proof. reflexivity. Qed.

Lemma est_pair_false lut x0 x1 :
  let a := Z.abs x0 in let b := Z.abs x1 in
  est (pair_w lut false x0 x1) =
  est (esc_w (Z.to_nat (nesc a b)) lut a b 0) + 2048 * nonz x0 x1 + esc_cost lut a b (nesc a b).
Proof.
  cbv zeta. unfold pair_w, lsb_first, nonz. cbn [andb b2z Z.eqb app]. rewrite Z.sub_0_r.
  rewrite !est_app. unfold sym_op. rewrite est_sym, est_nil. fold (esc_cost lut (Z.abs x0) (Z.abs x1) (nesc (Z.abs x0) (Z.abs x1))).
  unfold sign_ops. rewrite est_app, !est_sign, !msb_part_false.
  replace (Z.abs x0 =? 0) with (x0 =? 0) by lia. replace (Z.abs x1 =? 0) with (x1 =? 0) by lia. lia.
Qed.

Lemma shr1_0 a : 0 <= a -> (shr a 1 =? 0) = (a =? 0) || (a =? 1).
Proof.
  intros H. unfold shr. change (2 ^ 1) with 2. Z.div_mod_to_equations. lia.
Qed.

Lemma est_pair_true lut x0 x1 :
  est (pair_w lut true x0 x1) = est (pair_w lut false x0 x1) - 2048 * lsbn x0 x1.
Proof.
  rewrite est_pair_false. cbv zeta. unfold pair_w, lsbn, sign_ops.
  rewrite !est_app, !est_sign, !msb_part_0.
  unfold sym_op at 2. rewrite est_sym, est_nil. fold (esc_cost lut (Z.abs x0) (Z.abs x1) (nesc (Z.abs x0) (Z.abs x1))).
  unfold lsb_first. cbn [andb]. unfold nonz.
  set (a := Z.abs x0). set (b := Z.abs x1). assert (Ha : 0 <= a) by (unfold a; lia). assert (Hb : 0 <= b) by (unfold b; lia).
  pose proof (nesc_nonneg a b) as Hn. destruct (0 <? nesc a b) eqn:E; cbn [b2z Z.eqb].
  - unfold sym_op. rewrite est_sym, est_nil.
    change (cost _) with (esc_cost lut a b 0) at 1.
    replace (Z.to_nat (nesc a b)) with (S (Z.to_nat (nesc a b - 1))) by lia. rewrite est_esc.
    rewrite !shr1_0 by assumption. change (0 + 1) with 1.
    destruct (a =? 0) eqn:A0, (a =? 1) eqn:A1, (b =? 0) eqn:B0, (b =? 1) eqn:B1; cbn [orb negb b2z]; lia.
  - unfold shr. change (2 ^ 0) with 1. rewrite !Z.div_1_r, Z.sub_0_r, est_nil. lia.
Qed.

Lemma quad_eq (a b c d a' b' c' d' : Z) : a = a' -> b = b' -> c = c' -> d = d' -> (a, b, c, d) = (a', b', c', d').
Proof. intros. subst. reflexivity. Qed.

Lemma nbits_pair_est lut lm st x0 x1 nb nl : LutOk lut -> Z.abs x0 < 2 ^ 32 -> Z.abs x1 < 2 ^ 32 ->
  nbits_pair lut lm st x0 x1 nb nl =
  (nb + est (pair_w lut false x0 x1) - (if lm then escd x0 x1 else 0), nl + (if lm then lsbn x0 x1 else 0),
   nonz x0 x1, pair_state st x0 x1).
Proof.
  intros Hl H0 H1. rewrite est_pair_false. cbv zeta. unfold nbits_pair, lsbn, pair_state, nonz, escd.
  set (a := Z.abs x0) in *. set (b := Z.abs x1) in *.
  assert (Ha : 0 <= a) by (unfold a; lia). assert (Hb : 0 <= b) by (unfold b; lia).
  pose proof (nesc_le a b 30 Ha Hb ltac:(lia) H0 H1) as Hn. pose proof (nesc_nonneg a b) as Hn0.
  set (s := b2z (negb (a =? 0)) + b2z (negb (b =? 0))). clearbody s.
  change (shr (Z.lor a b) 2) with (shr (Z.lor a b) (2 + 0)). rewrite (nesc_m a b 0 Ha Hb ltac:(lia)).
  pose proof (shr_nesc a b Ha Hb) as Hsh.
  destruct (nesc a b <=? 0) eqn:E.
  - assert (En : nesc a b = 0) by lia. rewrite En in *. cbn [Z.to_nat esc_w]. rewrite est_nil.
    replace (0 <? 0) with false by lia.
    assert (Ea : shr a 0 = a) by (unfold shr; change (2 ^ 0) with 1; apply Z.div_1_r).
    assert (Eb : shr b 0 = b) by (unfold shr; change (2 ^ 0) with 1; apply Z.div_1_r).
    rewrite Ea, Eb in *. unfold esc_cost, sym_at. rewrite En. change (0 <? 0) with false. cbv iota. rewrite Ea, Eb.
    rewrite spec_bits_cost by (auto; lia). change (Z.min 0 3) with 0. destruct lm; apply quad_eq; [lia|lia|lia|reflexivity|lia|lia|lia|reflexivity].
  - replace (0 <? nesc a b) with true by lia.
    assert (Elast : spec_bits lut (Z.min (nesc a b) 3) (shr a (nesc a b) + 4 * shr b (nesc a b)) = esc_cost lut a b (nesc a b)).
    { unfold esc_cost. rewrite spec_bits_cost by (auto; lia). unfold sym_at. rewrite Z.ltb_irrefl. reflexivity. }
    destruct lm; cbn [b2z].
    + rewrite shr_shr by lia. change (2 + 0 + 1) with (2 + 1). rewrite nbits_escapes_est by (auto; lia).
      rewrite Elast. replace (Z.to_nat (nesc a b)) with (S (Z.to_nat (nesc a b - 1))) by lia. rewrite est_esc.
      rewrite (esc_cost_16 lut a b 0) by (auto; lia). change (Z.min 0 3) with 0. change (0 + 1) with 1. apply quad_eq; [lia|lia|lia|reflexivity].
    + rewrite shr_shr by lia. change (2 + 0 + 0) with (2 + 0). rewrite nbits_escapes_est by (auto; lia).
      rewrite Elast, Z.sub_0_r. apply quad_eq; [lia|lia|lia|reflexivity].
Qed.

(** ** The pairs *)
Fixpoint lsbns (xs : list Z) : Z := match xs with x0 :: x1 :: xs => lsbn x0 x1 + lsbns xs | _ => 0 end.
Fixpoint escds (xs : list Z) : Z := match xs with x0 :: x1 :: xs => escd x0 x1 + escds xs | _ => 0 end.
Definition allz (xs : list Z) : Prop := Forall (fun x => x = 0) xs.

Lemma escds_lsbns xs : 0 <= escds xs <= 2048 * lsbns xs.
Proof.
  induction xs as [|x|x0 x1 xs IH] using pair_ind; cbn [escds lsbns]; [lia|lia|].
  pose proof (escd_lsbn x0 x1). lia.
Qed.

Lemma est_pairs_true high ne xs : forall i st,
  est (pairs_w high true ne i st xs) = est (pairs_w high false ne i st xs) - 2048 * lsbns xs.
Proof.
  induction xs as [|x|x0 x1 xs IH] using pair_ind; intros i st; cbn [pairs_w lsbns]; [reflexivity|reflexivity|].
  rewrite !est_app, IH, est_pair_true. lia.
Qed.

Definition pcost (high lm : bool) (ne i st : Z) (xs : list Z) : Z :=
  est (pairs_w high false ne i st xs) - (if lm then escds xs else 0).

Lemma pcost_cons high lm ne i st x0 x1 xs :
  pcost high lm ne i st (x0 :: x1 :: xs) =
  est (pair_w (lookup high (half ne i) st) false x0 x1) - (if lm then escd x0 x1 else 0)
  + pcost high lm ne (i + 2) (pair_state st x0 x1) xs.
Proof. unfold pcost. cbn [pairs_w escds]. rewrite est_app. destruct lm; lia. Qed.

Lemma est_pair_ge lut x0 x1 : LutOk lut -> escd x0 x1 <= est (pair_w lut false x0 x1).
Proof.
  intros Hl. pose proof (est_pair_true lut x0 x1) as E. pose proof (escd_lsbn x0 x1).
  pose proof (est_nonneg _ (pair_w_ok lut true x0 x1 Hl)). lia.
Qed.

Lemma pair_state_range st x0 x1 : 0 <= pair_state st x0 x1 < 256.
Proof. apply next_state_range. Qed.

Lemma pcost_nonneg high lm ne xs : forall i st, 0 <= st < 256 -> 0 <= pcost high lm ne i st xs.
Proof.
  induction xs as [|x|x0 x1 xs IH] using pair_ind; intros i st Hs; try (unfold pcost; cbn; destruct lm; lia).
  rewrite pcost_cons. specialize (IH (i + 2) _ (pair_state_range st x0 x1)).
  pose proof (est_pair_ge (lookup high (half ne i) st) x0 x1 (lookup_ok _ _ _ (half_range _ _) Hs)) as G.
  pose proof (escd_lsbn x0 x1).
  destruct lm; lia.
Qed.

Lemma nonz_0 x0 x1 : nonz x0 x1 = 0 <-> x0 = 0 /\ x1 = 0.
Proof.
  unfold nonz. destruct (Z.abs x0 =? 0) eqn:E0, (Z.abs x1 =? 0) eqn:E1; cbn [negb b2z]; lia.
Qed.
Lemma lsbn_0 x0 x1 : nonz x0 x1 = 0 -> lsbn x0 x1 = 0.
Proof. rewrite nonz_0. intros [-> ->]. reflexivity. Qed.
Lemma lsbn_nonneg x0 x1 : 0 <= lsbn x0 x1.
Proof. pose proof (escd_lsbn x0 x1). lia. Qed.
Lemma lsbns_nonneg xs : 0 <= lsbns xs.
Proof. pose proof (escds_lsbns xs). lia. Qed.

Definition small (xs : list Z) : Prop := Forall (fun x => Z.abs x < 2 ^ 32) xs.

(** Result of the loops: pairs kept, cost, and bits set aside in all the pairs seen. *)
Lemma firstn_2 {A} k (x0 x1 : A) xs : 1 <= k ->
  firstn (Z.to_nat (2 * k)) (x0 :: x1 :: xs) = x0 :: x1 :: firstn (Z.to_nat (2 * (k - 1))) xs.
Proof. intros H. replace (Z.to_nat (2 * k)) with (S (S (Z.to_nat (2 * (k - 1))))) by lia. reflexivity. Qed.
Lemma skipn_2 {A} k (x0 x1 : A) xs : 1 <= k ->
  skipn (Z.to_nat (2 * k)) (x0 :: x1 :: xs) = skipn (Z.to_nat (2 * (k - 1))) xs.
Proof. intros H. replace (Z.to_nat (2 * k)) with (S (S (Z.to_nat (2 * (k - 1))))) by lia. reflexivity. Qed.
Lemma even_cons2 (x0 x1 : Z) xs : Z.even (zlen (x0 :: x1 :: xs)) = Z.even (zlen xs).
Proof. rewrite !zlen_cons. replace (1 + (1 + zlen xs)) with (zlen xs + 2 * 1) by lia. apply Z.even_add_mul_2. Qed.

Lemma nbits_pairs_spec high lm ne budget xs : small xs -> Z.even (zlen xs) = true ->
  forall i st nb nl n0 e0 n e l, 0 <= st < 256 ->
  nbits_pairs high lm ne budget i st nb nl n0 e0 xs = (n, e, l) ->
  exists m, 0 <= m /\ 2 * m <= zlen xs /\
    (if m =? 0 then n = n0 /\ e = e0
     else n = i + 2 * m /\ e = nb + pcost high lm ne i st (firstn (Z.to_nat (2 * m)) xs) /\ e <= budget) /\
    nl + (if lm then lsbns (firstn (Z.to_nat (2 * m)) xs) else 0) <= l /\
    l <= nl + (if lm then lsbns xs else 0) /\
    (forall k, 0 <= k -> nb + pcost high lm ne i st (firstn (Z.to_nat (2 * k)) xs) <= budget ->
       allz (skipn (Z.to_nat (2 * m)) (firstn (Z.to_nat (2 * k)) xs))) /\
    (0 < m -> ~ allz (skipn (Z.to_nat (2 * (m - 1))) (firstn (Z.to_nat (2 * m)) xs))).
Proof.
  induction xs as [|x|x0 x1 xs IH] using pair_ind; intros Hx He i st nb nl n0 e0 n e l Hst H.
  - cbn [nbits_pairs] in H. inversion H; subst. exists 0.
    split; [lia|]. split; [vm_compute; congruence|]. split; [split; reflexivity|].
    split; [destruct lm; cbn; lia|]. split; [destruct lm; cbn; lia|]. split; [|lia]. intros k Hk _. rewrite firstn_nil. constructor.
  - discriminate.
  - rewrite even_cons2 in He. pose proof (Forall_inv Hx) as H0. apply Forall_inv_tail in Hx.
    pose proof (Forall_inv Hx) as H1. apply Forall_inv_tail in Hx. specialize (IH Hx He).
    pose proof (lsbns_nonneg xs) as L0. pose proof (lsbn_nonneg x0 x1) as L1.
    pose proof (zlen_nonneg xs) as Z0.
    assert (ZL : zlen (x0 :: x1 :: xs) = 2 + zlen xs) by (rewrite (zlen_cons x0), (zlen_cons x1); lia). rewrite ZL. clear ZL.
    cbn [nbits_pairs] in H. set (lut := lookup high (half ne i) st) in *.
    assert (Hl : LutOk lut) by (apply lookup_ok; [apply half_range|exact Hst]).
    pose proof (est_pair_ge lut x0 x1 Hl) as Hge. pose proof (escd_lsbn x0 x1) as Hel.
    set (c := est (pair_w lut false x0 x1) - (if lm then escd x0 x1 else 0)) in *.
    assert (Hc : 0 <= c) by (unfold c; destruct lm; lia).
    assert (PC : forall k, 1 <= k -> pcost high lm ne i st (firstn (Z.to_nat (2 * k)) (x0 :: x1 :: xs)) =
      c + pcost high lm ne (i + 2) (pair_state st x0 x1) (firstn (Z.to_nat (2 * (k - 1))) xs)).
    { intros k Hk. rewrite firstn_2 by exact Hk. rewrite pcost_cons. unfold c, lut. reflexivity. }
    assert (P0 : forall ys, 0 <= pcost high lm ne (i + 2) (pair_state st x0 x1) ys).
    { intros ys. apply pcost_nonneg, pair_state_range. }
    destruct (nb <=? budget) eqn:Eb.
    + rewrite nbits_pair_est in H by assumption.
      replace (nb + est (pair_w lut false x0 x1) - (if lm then escd x0 x1 else 0)) with (nb + c) in H by (unfold c; lia).
      clearbody c. set (nl' := nl + (if lm then lsbn x0 x1 else 0)) in *.
      destruct (negb (nonz x0 x1 =? 0) && (nb + c <=? budget)) eqn:Ek; cbv iota in H.
      * apply IH in H; [|apply pair_state_range]. destruct H as (m & Hm & Hm2 & Hr & Hl1 & Hl2 & Hk & Hz).
        exists (m + 1). split; [lia|]. split; [lia|].
        replace (m + 1 =? 0) with false by lia. rewrite PC by lia. replace (m + 1 - 1) with m by lia.
        split.
        { destruct (m =? 0) eqn:Em.
          - replace m with 0 by lia. change (Z.to_nat (2 * 0)) with 0%nat. cbn [firstn].
            replace (pcost high lm ne (i + 2) (pair_state st x0 x1) []) with 0 by (unfold pcost; cbn; destruct lm; reflexivity).
            destruct Hr as [-> ->]. lia.
          - destruct Hr as (-> & -> & Hr). lia. }
        rewrite firstn_2 by lia. replace (m + 1 - 1) with m by lia. cbn [lsbns]. unfold nl' in *.
        split; [destruct lm; lia|]. split; [destruct lm; lia|].
        split.
        { intros k Hk0 Hkb. destruct (Z.eq_dec k 0) as [->|Hk1]; [rewrite skipn_nil; constructor|].
          rewrite firstn_2, skipn_2 by lia. replace (m + 1 - 1) with m by lia. apply Hk; [lia|].
          rewrite PC in Hkb by lia. lia. }
        intros _. destruct (Z.eq_dec m 0) as [->|Hm0].
        { change (Z.to_nat (2 * 0)) with 0%nat. cbn [firstn skipn]. intros G. apply andb_true_iff in Ek.
          destruct Ek as [Ek _]. assert (E0 : nonz x0 x1 = 0); [|rewrite E0 in Ek; discriminate Ek]. apply nonz_0.
          pose proof (Forall_inv G) as G0. apply Forall_inv_tail in G. pose proof (Forall_inv G) as G1.
          split; [exact G0|exact G1]. }
        rewrite skipn_2 by lia. apply Hz. lia.
      * apply IH in H; [|apply pair_state_range]. destruct H as (m & Hm & Hm2 & Hr & Hl1 & Hl2 & Hk & Hz).
        destruct (Z.eq_dec m 0) as [->|Hm0].
        { exists 0. change (Z.to_nat (2 * 0)) with 0%nat in *. cbn [Z.eqb firstn skipn lsbns] in *. unfold nl' in *.
          split; [lia|]. split; [lia|]. split; [exact Hr|]. split; [destruct lm; lia|]. split; [destruct lm; lia|].
          split; [|lia]. intros k Hk0 Hkb. destruct (Z.eq_dec k 0) as [->|Hk1]; [constructor|].
          rewrite PC in Hkb by lia. rewrite firstn_2 by lia.
          specialize (Hk (k - 1) ltac:(lia) ltac:(lia)).
          assert (Hn : nonz x0 x1 = 0).
          { destruct (nonz x0 x1 =? 0) eqn:En; [lia|]. cbn [negb andb] in Ek. specialize (P0 (firstn (Z.to_nat (2 * (k - 1))) xs)). lia. }
          apply nonz_0 in Hn. destruct Hn as [-> ->]. constructor; [reflexivity|]. constructor; [reflexivity|exact Hk]. }
        exists (m + 1). replace (m =? 0) with false in Hr by lia. destruct Hr as (-> & -> & Hr).
        split; [lia|]. split; [lia|]. replace (m + 1 =? 0) with false by lia.
        rewrite PC by lia. rewrite firstn_2 by lia. replace (m + 1 - 1) with m by lia. cbn [lsbns]. unfold nl' in *.
        split; [lia|]. split; [destruct lm; lia|]. split; [destruct lm; lia|].
        split.
        { intros k Hk0 Hkb. destruct (Z.eq_dec k 0) as [->|Hk1]; [rewrite skipn_nil; constructor|].
          rewrite firstn_2, skipn_2 by lia. replace (m + 1 - 1) with m by lia. apply Hk; [lia|].
          rewrite PC in Hkb by lia. lia. }
        intros _. rewrite skipn_2 by lia. apply Hz. lia.
    + clearbody c. inversion H; subst. exists 0. cbn [Z.eqb]. change (Z.to_nat (2 * 0)) with 0%nat. cbn [firstn lsbns skipn].
      split; [lia|]. split; [lia|]. split; [auto|]. split; [destruct lm; lia|]. split; [destruct lm; lia|].
      split; [|lia]. intros k Hk Hkb. destruct (Z.eq_dec k 0) as [->|Hk1]; [constructor|].
      rewrite PC in Hkb by lia. specialize (P0 (firstn (Z.to_nat (2 * (k - 1))) xs)). lia.
Qed.
