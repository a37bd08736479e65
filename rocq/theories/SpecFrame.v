(** * Spectrum coding: the pairs and the least significant bits *)
From Coq Require Import ZArith List Bool Lia ZifyBool.
From Verif Require Import Base BaseProofs Tables TableProofs BitsModel ConfigModel SpecModel SpecSpec.
From Verif Require Import BitsWriteSafe BitsAbstract BitsWriteSim BitsReadSim BitsReadSafe.
From Verif Require Import SideProofs SpecProofs SpecPairs.
Import ListNotations.
Local Open Scope Z_scope.

(** Induction by pairs. *)
Lemma pair_ind {A} (P : list A -> Prop) :
  P [] -> (forall x, P [x]) -> (forall x y l, P l -> P (x :: y :: l)) -> forall l, P l.
Proof.
  intros H0 H1 H2. fix IH 1. intros [|x [|y l]]; [exact H0|apply H1|apply H2, IH].
Qed.

(** [Reads_bind] for tuples. *)
Lemma Reads_bind2 {A B C} (get : rst -> (A * B) * rst) (k : A -> B -> rst -> C * rst) ops1 ops2 a b v :
  Forall op_ok ops1 -> Forall op_ok ops2 -> Reads get ops1 (a, b) -> Reads (k a b) ops2 v ->
  Reads (fun r => let '((x, y), r) := get r in k x y r) (ops1 ++ ops2) v.
Proof.
  intros H1 H2 R1 R2.
  eapply Reads_ext; [|exact (Reads_bind get (fun p => k (fst p) (snd p)) ops1 ops2 (a, b) v H1 H2 R1 R2)].
  intros r. cbv beta. destruct (get r) as [[x y] r']. reflexivity.
Qed.
Lemma Reads_bind3 {A B C D} (get : rst -> (A * B * C) * rst) (k : A -> B -> C -> rst -> D * rst)
  ops1 ops2 a b c v :
  Forall op_ok ops1 -> Forall op_ok ops2 -> Reads get ops1 (a, b, c) -> Reads (k a b c) ops2 v ->
  Reads (fun r => let '((x, y, z), r) := get r in k x y z r) (ops1 ++ ops2) v.
Proof.
  intros H1 H2 R1 R2.
  eapply Reads_ext; [|exact (Reads_bind get (fun p => k (fst (fst p)) (snd (fst p)) (snd p))
    ops1 ops2 (a, b, c) v H1 H2 R1 R2)].
  intros r. cbv beta. destruct (get r) as [[[x y] z] r']. reflexivity.
Qed.

(** ** Agreement with the specification *)
Lemma nesc_pos a b : 0 <= a -> 0 <= b -> (0 <? nesc a b) = (4 <=? Z.max a b).
Proof.
  intros Ha Hb. destruct (4 <=? Z.max a b) eqn:E.
  - destruct (nesc_bound a b Ha Hb) as (H1 & H2). pose proof (nesc_nonneg a b) as Hn.
    destruct (Z.eq_dec (nesc a b) 0) as [E0|]; [|lia]. rewrite E0 in *. change (2 ^ (0 + 2)) with 4 in *. lia.
  - pose proof (nesc_le a b 0 Ha Hb ltac:(lia)). change (2 ^ (0 + 2)) with 4 in *. lia.
Qed.

Lemma even_part_eq x : Z.sgn x * (2 * (Z.abs x / 2)) = even_part x.
Proof.
  unfold even_part. destruct (Z.lt_trichotomy x 0) as [H|[->|H]]; [|reflexivity|].
  - rewrite Z.sgn_neg, Z.abs_neq by lia.
    replace x with (- - x) at 2 by lia. rewrite Z.quot_opp_l, Z.quot_div_nonneg by lia. lia.
  - rewrite Z.sgn_pos, Z.abs_eq, Z.quot_div_nonneg by lia. lia.
Qed.

Lemma msb_part_eq lsb x0 x1 x :
  msb_part lsb (Z.abs x0) (Z.abs x1) x = if lsb && large x0 x1 then even_part x else x.
Proof.
  unfold msb_part, large. rewrite nesc_pos, even_part_eq by lia. reflexivity.
Qed.

(** ** The pairs *)
Fixpoint pairs_w (high lsb : bool) (ne i state : Z) (xs : list Z) : list wop :=
  match xs with
  | x0 :: x1 :: xs =>
      pair_w (lookup high (half ne i) state) lsb x0 x1 ++
      pairs_w high lsb ne (i + 2) (pair_state state x0 x1) xs
  | _ => []
  end.

Lemma next_state_range s k a b : 0 <= next_state s k a b < 256.
Proof. unfold next_state, u8. apply Z.mod_pos_bound. lia. Qed.

Lemma put_pairs_ops high lsb ne xs : Forall (fun x => Z.abs x < 2 ^ 32) xs ->
  forall i state w, put_pairs high lsb ne i state w xs =
    fold_left wstep (pairs_w high lsb ne i state xs) w.
Proof.
  induction xs as [|x|x0 x1 xs IH] using pair_ind; intros Hx i state w; [reflexivity|reflexivity|].
  pose proof (Forall_inv Hx) as H0. apply Forall_inv_tail in Hx.
  pose proof (Forall_inv Hx) as H1. apply Forall_inv_tail in Hx.
  cbn [put_pairs pairs_w]. rewrite put_pair_ops by assumption.
  rewrite fold_left_app. apply IH. exact Hx.
Qed.

Lemma pairs_w_ok high lsb ne xs : forall i state, 0 <= state < 256 ->
  Forall op_ok (pairs_w high lsb ne i state xs).
Proof.
  induction xs as [|x|x0 x1 xs IH] using pair_ind; intros i state Hs; cbn [pairs_w]; try constructor.
  apply Forall_app. split.
  - apply pair_w_ok, lookup_ok; [apply half_range|exact Hs].
  - apply IH. apply next_state_range.
Qed.

Lemma add_seed_eq S i x0 x1 :
  add_seed (S mod 65536) i x0 x1 = (S + seed_sum i [x0; x1]) mod 65536.
Proof.
  unfold add_seed. rewrite land_65535. cbn [seed_sum].
  change 32767 with (2 ^ 15 - 1). rewrite !land_mask by lia. change (2 ^ 15) with 32768.
  rewrite <- !Z.add_assoc. rewrite Z.add_mod_idemp_l by lia. f_equal. lia.
Qed.

Lemma get_pairs_reads high lsb ms ne xs : 0 <= ms <= 30 -> Z.even (zlen xs) = true ->
  Forall (fun x => Z.abs x < 2 ^ (ms + 2)) xs ->
  forall i state S, 0 <= state < 256 ->
  Reads (fun r => get_pairs (Z.to_nat (zlen xs / 2)) high lsb ms ne i state (S mod 65536) r)
    (pairs_w high lsb ne i state xs)
    (Some (without_lsb lsb xs, (S + seed_sum i (without_lsb lsb xs)) mod 65536)).
Proof.
  intros Hms. induction xs as [|x|x0 x1 xs IH] using pair_ind; intros He Hx i state S Hs.
  - cbn [pairs_w without_lsb seed_sum]. rewrite Z.add_0_r. apply Reads_ret.
  - discriminate.
  - pose proof (Forall_inv Hx) as H0. apply Forall_inv_tail in Hx.
    pose proof (Forall_inv Hx) as H1. apply Forall_inv_tail in Hx.
    rewrite !zlen_cons in He |- *.
    assert (He2 : Z.even (zlen xs) = true).
    { replace (1 + (1 + zlen xs)) with (zlen xs + 2 * 1) in He by lia.
      rewrite Z.even_add_mul_2 in He. exact He. }
    replace ((1 + (1 + zlen xs)) / 2) with (zlen xs / 2 + 1)
      by (replace (1 + (1 + zlen xs)) with (zlen xs + 1 * 2) by lia; rewrite Z.div_add by lia; lia).
    pose proof (zlen_nonneg xs) as Hz.
    pose proof (Z.div_pos (zlen xs) 2 ltac:(lia) ltac:(lia)) as Hz2.
    replace (Z.to_nat (zlen xs / 2 + 1)) with (Datatypes.S (Z.to_nat (zlen xs / 2))) by lia.
    cbn [get_pairs pairs_w without_lsb].
    replace (negb (inb state 256)) with false by (unfold inb; lia).
    pose proof (lookup_ok high (half ne i) state (half_range ne i) Hs) as Hl.
    pose proof (get_pair_reads _ ms lsb state x0 x1 Hl Hms H0 H1) as HR. cbv zeta in HR.
    rewrite !msb_part_eq in HR.
    set (y0 := if lsb && large x0 x1 then even_part x0 else x0) in *.
    set (y1 := if lsb && large x0 x1 then even_part x1 else x1) in *.
    replace (if lsb && large x0 x1 then [even_part x0; even_part x1] else [x0; x1]) with [y0; y1]
      by (unfold y0, y1; destruct (lsb && large x0 x1); reflexivity).
    apply (Reads_order _ _ (pair_w (lookup high (half ne i) state) lsb x0 x1)) in HR;
      [|intros; apply pair_streams].
    eapply Reads_ext; [intros r; rewrite flag_oob_false; reflexivity|].
    apply (Reads_bind _ (fun o r => match o with
      | Some (x0, x1, state) =>
         let '(o, r) := get_pairs (Z.to_nat (zlen xs / 2)) high lsb ms ne (i + 2) state
            (add_seed (S mod 65536) i x0 x1) r in
          (option_map (fun '(xs, seed) => (x0 :: x1 :: xs, seed)) o, r)
      | None => (None, r) end) _ _ _ _
      (pair_w_ok _ lsb x0 x1 Hl) (pairs_w_ok high lsb ne xs (i + 2) _ (next_state_range _ _ _ _)) HR).
    cbv beta iota. rewrite add_seed_eq.
    rewrite <- (app_nil_r (pairs_w high lsb ne (i + 2) _ xs)).
    eapply Reads_bind; [apply pairs_w_ok, next_state_range|constructor| |].
    { apply IH; auto. apply next_state_range. }
    cbv beta. cbn [option_map app seed_sum].
    replace (S + (Z.abs y0 mod 32768 * i + (Z.abs y1 mod 32768 * (i + 1) + 0)) +
        seed_sum (i + 2) (without_lsb lsb xs))
      with (S + (Z.abs y0 mod 32768 * i + (Z.abs y1 mod 32768 * (i + 1) +
        seed_sum (i + 1 + 1) (without_lsb lsb xs)))) by (replace (i + 1 + 1) with (i + 2) by lia; lia).
    apply Reads_ret.
Qed.

(** ** The least significant bits *)
Definition bit_op (b : Z) : wop := PutBits b 1.
Definition is_bit (b : Z) : Prop := b = 0 \/ b = 1.
Definition lsb_ops (n : Z) (xs : list Z) : list wop :=
  map bit_op (firstn (Z.to_nat n) (concat (lsb_stream xs))).

Lemma bit_op_ok b : is_bit b -> op_ok (bit_op b).
Proof. intros H. cbn. destruct H; lia. Qed.
Lemma bit_ops_ok2 l : Forall is_bit l -> Forall op_ok (map bit_op l).
Proof. intros H. induction H; cbn [map]; constructor; auto. apply bit_op_ok. assumption. Qed.
Lemma Forall_firstn {A} (P : A -> Prop) n l : Forall P l -> Forall P (firstn n l).
Proof.
  intros H. revert n. induction H; intros [|n]; cbn [firstn]; constructor; auto.
Qed.
Lemma lsb_bits_ok x : Forall is_bit (lsb_bits x).
Proof.
  unfold lsb_bits, is_bit. pose proof (Z.mod_pos_bound (Z.abs x) 2 ltac:(lia)).
  constructor; [lia|]. destruct (Z.abs x =? 1); constructor; [|constructor].
  destruct (x <? 0); auto.
Qed.
Lemma lsb_stream_ok xs : Forall is_bit (concat (lsb_stream xs)).
Proof.
  induction xs as [|x|x0 x1 xs IH] using pair_ind; cbn; try constructor.
  destruct (large x0 x1); cbn [app concat]; [|exact IH].
  apply Forall_app. split; [apply lsb_bits_ok|].
  apply Forall_app. split; [apply lsb_bits_ok|exact IH].
Qed.
Lemma lsb_ops_ok n xs : Forall op_ok (lsb_ops n xs).
Proof. apply bit_ops_ok2, Forall_firstn, lsb_stream_ok. Qed.

Lemma zlen_lsb_bits x : zlen (lsb_bits x) = if Z.abs x =? 1 then 2 else 1.
Proof. unfold lsb_bits. destruct (Z.abs x =? 1); reflexivity. Qed.

Lemma firstn_app_z {A} n (l m : list A) :
  firstn (Z.to_nat n) (l ++ m) = firstn (Z.to_nat n) l ++ firstn (Z.to_nat (n - zlen l)) m.
Proof.
  rewrite firstn_app. do 2 f_equal. unfold zlen. lia.
Qed.

Lemma firstn_nonpos {A} n (l : list A) : n <= 0 -> firstn (Z.to_nat n) l = [].
Proof. intros H. replace (Z.to_nat n) with 0%nat by lia. reflexivity. Qed.
Lemma firstn_1 {A} n (x : A) l : 0 < n -> firstn (Z.to_nat n) (x :: l) = x :: firstn (Z.to_nat (n - 1)) l.
Proof. intros H. replace (Z.to_nat n) with (S (Z.to_nat (n - 1))) by lia. reflexivity. Qed.

Lemma put_lsb1_ops w n x :
  put_lsb1 w n x = (fold_left wstep (map bit_op (firstn (Z.to_nat n) (lsb_bits x))) w,
                    n - zlen (lsb_bits x)).
Proof.
  unfold put_lsb1. rewrite zlen_lsb_bits, land_1.
  destruct (0 <? n) eqn:E.
  - unfold lsb_bits. rewrite firstn_1 by lia. cbn [map fold_left].
    destruct (Z.abs x =? 1); [|rewrite firstn_nil; reflexivity].
    destruct (0 <? n - 1) eqn:E2.
    + rewrite firstn_1 by lia. rewrite firstn_nil. cbn [map fold_left wstep bit_op].
      destruct (x <? 0); f_equal; lia.
    + rewrite firstn_nonpos by lia. cbn [map fold_left wstep bit_op]. f_equal; lia.
  - rewrite firstn_nonpos by lia. cbn [map fold_left].
    replace (0 <? n - 1) with false by lia.
    destruct (Z.abs x =? 1); f_equal; lia.
Qed.

Lemma large_lor x0 x1 : (shr (Z.lor (Z.abs x0) (Z.abs x1)) 2 =? 0) = negb (large x0 x1).
Proof.
  unfold large. rewrite <- nesc_pos by lia.
  change 2 with (2 + 0). rewrite nesc_m by lia. lia.
Qed.

Lemma put_lsb_ops xs : forall w n, put_lsb w n xs = fold_left wstep (lsb_ops n xs) w.
Proof.
  unfold lsb_ops.
  induction xs as [|x|x0 x1 xs IH] using pair_ind; intros w n;
    [cbn; rewrite firstn_nil; reflexivity|cbn; rewrite firstn_nil; reflexivity|].
  cbn [put_lsb lsb_stream]. rewrite large_lor.
  destruct (n <=? 0) eqn:E; [rewrite firstn_nonpos by lia; reflexivity|].
  destruct (large x0 x1); cbn [negb app concat]; [|apply IH].
  rewrite !put_lsb1_ops. rewrite IH. rewrite !firstn_app_z, !map_app, !fold_left_app. reflexivity.
Qed.

(** Reading the bits of a coefficient. *)
Definition upd_seed (S i x t : Z) : Z := S + (Z.abs x mod 32768 - Z.abs t mod 32768) * i.

Lemma even_abs x : Z.abs (even_part x) = 2 * (Z.abs x / 2).
Proof.
  rewrite <- even_part_eq. pose proof (Z.div_pos (Z.abs x) 2 ltac:(lia) ltac:(lia)).
  destruct (Z.lt_trichotomy x 0) as [H1|[->|H1]]; [|reflexivity|].
  - rewrite Z.sgn_neg by assumption. lia.
  - rewrite Z.sgn_pos by assumption. lia.
Qed.

Lemma odd_seed x : Z.abs x mod 2 = 1 -> Z.abs x mod 32768 - Z.abs (even_part x) mod 32768 = 1.
Proof.
  intros H. rewrite even_abs. pose proof (Z.div_mod (Z.abs x) 2 ltac:(lia)) as E. rewrite H in E.
  set (q := Z.abs x / 2) in *. rewrite E. change 32768 with (2 * 16384).
  rewrite Z.mul_mod_distr_l by lia.
  rewrite Z.rem_mul_r by lia.
  replace (2 * q + 1) with (1 + q * 2) by lia. rewrite Z.mod_add, Z.div_add by lia.
  change (1 mod 2) with 1. change (1 / 2) with 0. rewrite Z.add_0_l. lia.
Qed.

Lemma get_lsb1_reads n x i S :
  let ok := zlen (lsb_bits x) <=? n in
  Reads (fun r => get_lsb1 r n (even_part x) i (S mod 65536))
    (map bit_op (firstn (Z.to_nat n) (lsb_bits x)))
    (if ok then x else even_part x,
     (if 0 <? n then n - zlen (lsb_bits x) else n - 1),
     (if ok then upd_seed S i x (even_part x) else S) mod 65536).
Proof.
  cbv zeta. pose proof (lsb_bits_ok x) as Hb. unfold get_lsb1. rewrite zlen_lsb_bits.
  destruct (0 <? n) eqn:E.
  2:{ rewrite firstn_nonpos by lia. destruct (Z.abs x =? 1);
      match goal with |- context [?c <=? n] => replace (c <=? n) with false by lia end;
      apply Reads_ret. }
  unfold lsb_bits in *. rewrite firstn_1 by lia. cbn [map].
  pose proof (Forall_inv Hb) as Hb0. apply Forall_inv_tail in Hb.
  pose proof (Z.div_mod (Z.abs x) 2 ltac:(lia)) as Ed.
  pose proof (even_abs x) as Ee.
  unfold bit_op at 1. apply Reads_bit; [apply bit_op_ok; exact Hb0| |].
  { apply bit_ops_ok2, Forall_firstn. exact Hb. }
  destruct (Z.abs x mod 2 =? 0) eqn:E0.
  { (* even *)
    assert (E1 : (Z.abs x =? 1) = false).
    { destruct (Z.abs x =? 1) eqn:E1; [|reflexivity]. replace (Z.abs x) with 1 in E0 by lia. discriminate. }
    rewrite E1. rewrite firstn_nil. cbn [map]. replace (1 <=? n) with true by lia.
    assert (Ex : even_part x = x).
    { rewrite <- even_part_eq. replace (2 * (Z.abs x / 2)) with (Z.abs x) by lia. lia. }
    rewrite Ex. replace (upd_seed S i x x) with S by (unfold upd_seed; lia). apply Reads_ret. }
  assert (Eo : Z.abs x mod 2 = 1) by (destruct Hb0; lia). rewrite Eo in Ed.
  pose proof (odd_seed x Eo) as Es.
  assert (Eseed : Z.land (S mod 65536 + i) 65535 = upd_seed S i x (even_part x) mod 65536).
  { rewrite land_65535, Z.add_mod_idemp_l by lia. unfold upd_seed. rewrite Es. f_equal. lia. }
  pose proof (Z.div_pos (Z.abs x) 2 ltac:(lia) ltac:(lia)) as Hq.
  destruct (Z.abs x =? 1) eqn:E1.
  - (* one *)
    assert (Ez : even_part x = 0).
    { apply Z.abs_0_iff. rewrite Ee. replace (Z.abs x) with 1 by lia. reflexivity. }
    rewrite Ez in *. cbn [Z.eqb negb]. destruct (0 <? n - 1) eqn:E2.
    + rewrite firstn_1 by lia. cbn [map]. replace (2 <=? n) with true by lia.
      rewrite firstn_nil. cbn [map].
      unfold bit_op. apply Reads_bit; [apply bit_op_ok; exact (Forall_inv Hb)|constructor|].
      rewrite Eseed.
      replace (if (if x <? 0 then 1 else 0) =? 0 then 1 else -1) with x
        by (destruct (x <? 0) eqn:Ex; cbn; lia).
      replace (n - 1 - 1) with (n - 2) by lia. apply Reads_ret.
    + rewrite firstn_nonpos by lia. replace (2 <=? n) with false by lia. cbn [map].
      replace (n - 1 - 1) with (n - 2) by lia. apply Reads_ret.
  - rewrite firstn_nil. cbn [map]. replace (1 <=? n) with true by lia.
    replace (even_part x =? 0) with false by lia. cbn [negb].
    rewrite Eseed.
    replace (even_part x + (if even_part x <? 0 then -1 else 1)) with x.
    { apply Reads_ret. }
    rewrite <- even_part_eq. destruct (Z.lt_trichotomy x 0) as [H|[->|H]]; [|discriminate|].
    + rewrite Z.sgn_neg by assumption. match goal with |- context [?c <? 0] => replace (c <? 0) with true by lia end. lia.
    + rewrite Z.sgn_pos by assumption. match goal with |- context [?c <? 0] => replace (c <? 0) with false by lia end. lia.
Qed.

Lemma get_lsb_nonpos r n xs i seed : n <= 0 -> get_lsb r n xs i seed = ((xs, seed), r).
Proof.
  intros H. destruct xs as [|x0 [|x1 xs]]; [reflexivity|reflexivity|].
  cbn [get_lsb]. replace (n <=? 0) with true by lia. reflexivity.
Qed.

Lemma large_even x0 x1 :
  (Z.max (Z.abs (even_part x0)) (Z.abs (even_part x1)) <? 4) = negb (large x0 x1).
Proof.
  unfold large. rewrite !even_abs.
  pose proof (Z.div_mod (Z.abs x0) 2 ltac:(lia)). pose proof (Z.mod_pos_bound (Z.abs x0) 2 ltac:(lia)).
  pose proof (Z.div_mod (Z.abs x1) 2 ltac:(lia)). pose proof (Z.mod_pos_bound (Z.abs x1) 2 ltac:(lia)).
  lia.
Qed.

Lemma restore_nonpos xs : forall n, n <= 0 ->
  restore n (lsb_stream xs) xs (without_lsb true xs) = without_lsb true xs.
Proof.
  induction xs as [|x|x0 x1 xs IH] using pair_ind; intros n Hn; [reflexivity|reflexivity|].
  cbn [lsb_stream without_lsb andb]. destruct (large x0 x1); cbn [app restore].
  - rewrite zlen_lsb_bits. destruct (Z.abs x0 =? 1);
      match goal with |- context [?c <=? n] => replace (c <=? n) with false by lia end; reflexivity.
  - rewrite zlen_nil. destruct (0 <=? n) eqn:E; [|reflexivity].
    replace (0 <=? n - 0) with true by lia. rewrite IH by lia. reflexivity.
Qed.

Lemma get_lsb_reads xs : Z.even (zlen xs) = true -> forall n i S,
  let ts := without_lsb true xs in
  let ys := restore n (lsb_stream xs) xs ts in
  Reads (fun r => get_lsb r n ts i (S mod 65536)) (lsb_ops n xs)
    (ys, (S + (seed_sum i ys - seed_sum i ts)) mod 65536).
Proof.
  induction xs as [|x|x0 x1 xs IH] using pair_ind; intros He n i S ts ys.
  - unfold ys, ts, lsb_ops. cbn [without_lsb lsb_stream concat restore seed_sum].
    rewrite firstn_nil. cbn [map]. replace (S + (0 - 0)) with S by lia. apply Reads_ret.
  - discriminate.
  - assert (He2 : Z.even (zlen xs) = true).
    { rewrite !zlen_cons in He. replace (1 + (1 + zlen xs)) with (zlen xs + 2 * 1) in He by lia.
      rewrite Z.even_add_mul_2 in He. exact He. }
    specialize (IH He2).
    destruct (n <=? 0) eqn:En.
    { unfold ys, ts. rewrite restore_nonpos by lia.
      unfold lsb_ops. rewrite firstn_nonpos by lia. cbn [map].
      rewrite Z.sub_diag, Z.add_0_r.
      eapply Reads_ext; [intros r; symmetry; apply get_lsb_nonpos; lia|]. apply Reads_ret. }
    unfold ys, ts, lsb_ops. clear ys ts. cbn [lsb_stream without_lsb andb].
    destruct (large x0 x1) eqn:El; cbn [app concat get_lsb restore]; rewrite En.
    + rewrite large_even, El. cbn [negb].
      rewrite !firstn_app_z, !map_app.
      set (l0 := zlen (lsb_bits x0)). set (l1 := zlen (lsb_bits x1)).
      assert (Hl0 : 1 <= l0) by (unfold l0; rewrite zlen_lsb_bits; destruct (_ =? 1); lia).
      assert (Hl1 : 1 <= l1) by (unfold l1; rewrite zlen_lsb_bits; destruct (_ =? 1); lia).
      change (map bit_op (firstn (Z.to_nat (n - l0 - l1)) (concat (lsb_stream xs))))
        with (lsb_ops (n - l0 - l1) xs).
      pose proof (get_lsb1_reads n x0 i S) as R0. cbv zeta in R0. fold l0 in R0.
      replace (0 <? n) with true in R0 by lia.
      eapply Reads_bind3; [| |exact R0|].
      { apply bit_ops_ok2, Forall_firstn, lsb_bits_ok. }
      { apply Forall_app. split; [apply bit_ops_ok2, Forall_firstn, lsb_bits_ok|apply lsb_ops_ok]. }
      cbv beta iota.
      set (S1 := if l0 <=? n then upd_seed S i x0 (even_part x0) else S).
      pose proof (get_lsb1_reads (n - l0) x1 (i + 1) S1) as R1. cbv zeta in R1. fold l1 in R1.
      eapply Reads_bind3; [| |exact R1|].
      { apply bit_ops_ok2, Forall_firstn, lsb_bits_ok. }
      { apply lsb_ops_ok. }
      cbv beta iota.
      set (S2 := if l1 <=? n - l0 then upd_seed S1 (i + 1) x1 (even_part x1) else S1).
      set (n2 := if 0 <? n - l0 then n - l0 - l1 else n - l0 - 1).
      pose proof (IH n2 (i + 2) S2) as R2. cbv zeta in R2.
      assert (Ho : lsb_ops n2 xs = lsb_ops (n - l0 - l1) xs).
      { unfold n2. destruct (0 <? n - l0) eqn:E; [reflexivity|].
        unfold lsb_ops. rewrite !firstn_nonpos by lia. reflexivity. }
      rewrite Ho in R2. rewrite <- (app_nil_r (lsb_ops (n - l0 - l1) xs)).
      eapply Reads_bind2; [apply lsb_ops_ok|apply Forall_nil|exact R2|].
      cbv beta iota.
      assert (Hr : restore n2 (lsb_stream xs) xs (without_lsb true xs) =
         if l1 <=? n - l0 then restore (n - l0 - l1) (lsb_stream xs) xs (without_lsb true xs)
         else without_lsb true xs).
      { unfold n2. destruct (0 <? n - l0) eqn:E.
        - destruct (l1 <=? n - l0) eqn:E2; [reflexivity|]. apply restore_nonpos. lia.
        - replace (l1 <=? n - l0) with false by lia. apply restore_nonpos. lia. }
      rewrite Hr. unfold S2, S1, upd_seed.
      destruct (l0 <=? n) eqn:C0.
      * destruct (l1 <=? n - l0) eqn:C1; cbn [seed_sum]; replace (i + 1 + 1) with (i + 2) by lia.
        -- match goal with |- Reads _ _ (_, ?u mod _) => match goal with |- Reads (fun r => (_, ?v mod _, r)) _ _ =>
             replace v with u by ring end end. apply Reads_ret.
        -- match goal with |- Reads _ _ (_, ?u mod _) => match goal with |- Reads (fun r => (_, ?v mod _, r)) _ _ =>
             replace v with u by ring end end. apply Reads_ret.
      * replace (l1 <=? n - l0) with false by lia. cbn [seed_sum]. replace (i + 1 + 1) with (i + 2) by lia.
        match goal with |- Reads _ _ (_, ?u mod _) => match goal with |- Reads (fun r => (_, ?v mod _, r)) _ _ =>
             replace v with u by ring end end. apply Reads_ret.
    + unfold large in El. replace (Z.max (Z.abs x0) (Z.abs x1) <? 4) with true by lia.
      rewrite !zlen_nil. replace (0 <=? n) with true by lia. replace (0 <=? n - 0) with true by lia.
      replace (n - 0 - 0) with n by lia.
      pose proof (IH n (i + 2) S) as R2. cbv zeta in R2.
      change (map bit_op (firstn (Z.to_nat n) (concat (lsb_stream xs)))) with (lsb_ops n xs).
      rewrite <- (app_nil_r (lsb_ops n xs)).
      eapply Reads_bind2; [apply lsb_ops_ok|apply Forall_nil|exact R2|].
      cbv beta iota. cbn [seed_sum]. replace (i + 1 + 1) with (i + 2) by lia.
      match goal with |- Reads _ _ (_, ?u mod _) => match goal with |- Reads (fun r => (_, ?v mod _, r)) _ _ =>
             replace v with u by ring end end. apply Reads_ret.
Qed.

(** ** Whole spectrum *)
Lemma spectrum_32 dt sr xs : spectrum_ok dt sr xs -> Forall (fun x => Z.abs x < 2 ^ 32) xs.
Proof.
  intros (_ & _ & H). eapply Forall_impl; [|exact H]. intros x Hx.
  destruct (is_hr sr); cbv beta iota in Hx.
  - eapply Z.lt_trans; [exact Hx|]. apply Z.pow_lt_mono_r; lia.
  - eapply Z.lt_trans; [exact Hx|]. apply Z.pow_lt_mono_r; lia.
Qed.

Definition quantized_ops (dt sr nbytes : Z) (xs : list Z) (lsb : bool) : list wop :=
  pairs_w (high_rate sr nbytes) lsb (c_ne dt sr) 0 0 xs.

Lemma put_quantized_ops w dt sr nbytes xs lsb : spectrum_ok dt sr xs ->
  put_quantized w dt sr nbytes xs lsb = fold_left wstep (quantized_ops dt sr nbytes xs lsb) w.
Proof. intros H. apply put_pairs_ops. exact (spectrum_32 _ _ _ H). Qed.

Lemma quantized_ops_ok dt sr nbytes xs lsb : Forall op_ok (quantized_ops dt sr nbytes xs lsb).
Proof. apply pairs_w_ok. lia. Qed.

Lemma get_quantized_reads dt sr nbytes xs lsb : spectrum_ok dt sr xs ->
  Reads (fun r => get_quantized r dt sr nbytes (zlen xs) lsb) (quantized_ops dt sr nbytes xs lsb)
    (Some (without_lsb lsb xs, seed_of (without_lsb lsb xs))).
Proof.
  intros (_ & He & Hx). unfold get_quantized, quantized_ops, seed_of.
  assert (Hx2 : Forall (fun x => Z.abs x < 2 ^ ((if is_hr sr then 22 else 14) + 2)) xs).
  { eapply Forall_impl; [|exact Hx]. intros x. destruct (is_hr sr); auto. }
  pose proof (get_pairs_reads (high_rate sr nbytes) lsb (if is_hr sr then 22 else 14) (c_ne dt sr) xs
    ltac:(destruct (is_hr sr); lia) He Hx2 0 0 0 ltac:(lia)) as H.
  change (0 mod 65536) with 0 in H. rewrite Z.add_0_l in H. exact H.
Qed.

Lemma get_lsb_reads0 xs n : Z.even (zlen xs) = true ->
  let ts := without_lsb true xs in
  let ys := restore n (lsb_stream xs) xs ts in
  Reads (fun r => get_lsb r n ts 0 (seed_of ts)) (lsb_ops n xs) (ys, seed_of ys).
Proof.
  intros He ts ys. unfold seed_of. pose proof (get_lsb_reads xs He n 0 (seed_sum 0 ts)) as H.
  cbv zeta in H. fold ts in H. fold ys in H.
  replace (seed_sum 0 ts + (seed_sum 0 ys - seed_sum 0 ts)) with (seed_sum 0 ys) in H by lia. exact H.
Qed.

(** With enough bits, all the coefficients are restored. *)
Lemma restore_all xs : forall n, zlen (concat (lsb_stream xs)) <= n ->
  restore n (lsb_stream xs) xs (without_lsb true xs) = xs.
Proof.
  induction xs as [|x|x0 x1 xs IH] using pair_ind; intros n Hn; [reflexivity|reflexivity|].
  cbn [lsb_stream without_lsb andb] in *. destruct (large x0 x1); cbn [app restore concat] in *.
  - rewrite !zlen_app in Hn. pose proof (zlen_nonneg (concat (lsb_stream xs))).
    pose proof (zlen_nonneg (lsb_bits x1)).
    replace (zlen (lsb_bits x0) <=? n) with true by lia.
    replace (zlen (lsb_bits x1) <=? n - zlen (lsb_bits x0)) with true by lia.
    rewrite IH by lia. reflexivity.
  - pose proof (zlen_nonneg (concat (lsb_stream xs))). rewrite !zlen_nil.
    replace (0 <=? n) with true by lia. replace (0 <=? n - 0) with true by lia.
    rewrite IH by lia. reflexivity.
Qed.

(** Every coefficient is exact or has its magnitude rounded down to even. *)
Lemma restore_each xs : Z.even (zlen xs) = true -> forall n,
  Forall2 (fun x y => y = x \/ y = even_part x) xs
    (restore n (lsb_stream xs) xs (without_lsb true xs)).
Proof.
  induction xs as [|x|x0 x1 xs IH] using pair_ind; intros He n; [constructor|discriminate|].
  assert (He2 : Z.even (zlen xs) = true).
  { rewrite !zlen_cons in He. replace (1 + (1 + zlen xs)) with (zlen xs + 2 * 1) in He by lia.
    rewrite Z.even_add_mul_2 in He. exact He. }
  specialize (IH He2).
  assert (Hw : Forall2 (fun x y => y = x \/ y = even_part x) xs (without_lsb true xs)).
  { specialize (IH (-1)). rewrite restore_nonpos in IH by lia. exact IH. }
  cbn [lsb_stream without_lsb andb]. destruct (large x0 x1); cbn [app restore].
  - destruct (zlen (lsb_bits x0) <=? n); [|(apply Forall2_cons; [auto|]; apply Forall2_cons; auto)].
    destruct (zlen (lsb_bits x1) <=? n - zlen (lsb_bits x0)); (apply Forall2_cons; [auto|]; apply Forall2_cons; auto).
  - destruct (zlen [] <=? n); [|(apply Forall2_cons; [auto|]; apply Forall2_cons; auto)].
    destruct (zlen [] <=? n - zlen []); (apply Forall2_cons; [auto|]; apply Forall2_cons; auto).
Qed.
