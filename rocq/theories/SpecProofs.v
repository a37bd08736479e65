(** * Spectrum coding: operations, order of plain bits and symbols, round trip *)
From Coq Require Import ZArith List Bool Lia ZifyBool.
From Verif Require Import Base BaseProofs Tables TableProofs BitsModel ConfigModel SpecModel.
From Verif Require Import BitsWriteSafe BitsAbstract BitsWriteSim BitsReadSim BitsReadSafe SideProofs.
Import ListNotations.
Local Open Scope Z_scope.

(** ** Plain bits and symbols are independent *)
Definition is_bits (o : wop) : bool := match o with PutBits _ _ => true | PutSym _ _ => false end.
Definition bits_of (ops : list wop) : list wop := filter is_bits ops.
Definition syms_of (ops : list wop) : list wop := filter (fun o => negb (is_bits o)) ops.

Lemma astep_comm a v n m s : astep (astep a (PutBits v n)) (PutSym m s) =
  astep (astep a (PutSym m s)) (PutBits v n).
Proof. reflexivity. Qed.

Lemma fold_comm ops : forall a v n, Forall (fun o => is_bits o = false) ops ->
  fold_left astep ops (astep a (PutBits v n)) = astep (fold_left astep ops a) (PutBits v n).
Proof.
  induction ops as [|o ops IH]; intros a v n H; [reflexivity|].
  pose proof (Forall_inv H) as Ho. destruct o as [|m s]; [discriminate|].
  cbn [fold_left]. rewrite astep_comm. apply IH. exact (Forall_inv_tail H).
Qed.

Lemma syms_of_syms ops : Forall (fun o => is_bits o = false) (syms_of ops).
Proof.
  induction ops as [|o ops IH]; cbn; [constructor|].
  destruct o; cbn [is_bits negb]; [exact IH|]. constructor; [reflexivity|exact IH].
Qed.

Lemma fold_split ops : forall a,
  fold_left astep ops a = fold_left astep (bits_of ops) (fold_left astep (syms_of ops) a).
Proof.
  induction ops as [|o ops IH]; intros a; [reflexivity|].
  cbn [fold_left bits_of syms_of filter]. destruct o as [v n|m s]; cbn [is_bits negb].
  - cbn [fold_left]. rewrite <- fold_comm by apply syms_of_syms. apply IH.
  - cbn [fold_left]. apply IH.
Qed.

Lemma same_streams ops1 ops2 a : bits_of ops1 = bits_of ops2 -> syms_of ops1 = syms_of ops2 ->
  fold_left astep ops1 a = fold_left astep ops2 a.
Proof. intros H1 H2. rewrite fold_split, H1, H2, <- fold_split. reflexivity. Qed.

Lemma Reads_order {A} (get : rst -> A * rst) ops1 ops2 v :
  (forall a, fold_left astep ops1 a = fold_left astep ops2 a) ->
  Reads get ops1 v -> Reads get ops2 v.
Proof.
  intros E H F L r a Ha HS HF. rewrite <- E in *. apply H; assumption.
Qed.

Lemma bits_of_app l m : bits_of (l ++ m) = bits_of l ++ bits_of m.
Proof. apply filter_app. Qed.
Lemma syms_of_app l m : syms_of (l ++ m) = syms_of l ++ syms_of m.
Proof. apply filter_app. Qed.

(** ** Operations of a pair *)

(** Count of escapes: bits over the two most significant ones. *)
Definition nesc (a b : Z) : Z :=
  if Z.lor a b <? 4 then 0 else Z.log2 (Z.lor a b) - 1.

(** Symbol at the level [j], an escape or the most significant bits. *)
Definition sym_at (a b j : Z) : Z :=
  if j <? nesc a b then 16 else shr a (nesc a b) + 4 * shr b (nesc a b).

Definition sym_op (lut : Z -> Z) (a b j : Z) : wop :=
  PutSym (spec_model lut (Z.min j 3)) (sym_at a b j).
Definition bit_ops (a b j : Z) : list wop :=
  [PutBits (Z.land (shr a j) 1) 1; PutBits (Z.land (shr b j) 1) 1].

(** Write order: bits then symbol, read order: symbol then bits. *)
Fixpoint esc_w (n : nat) (lut : Z -> Z) (a b j : Z) : list wop :=
  match n with
  | O => []
  | S n => bit_ops a b j ++ sym_op lut a b j :: esc_w n lut a b (j + 1)
  end.
Fixpoint esc_r (n : nat) (lut : Z -> Z) (a b j : Z) : list wop :=
  match n with
  | O => []
  | S n => bit_ops a b j ++ sym_op lut a b (j + 1) :: esc_r n lut a b (j + 1)
  end.

(** Value without the bit left to the LSB part. *)
Definition msb_part (lsb : bool) (a b x : Z) : Z :=
  if lsb && (0 <? nesc a b) then Z.sgn x * (2 * (Z.abs x / 2)) else x.

Definition sign_op (x y : Z) : list wop := if y =? 0 then [] else [PutBits (b2z (x <? 0)) 1].
Definition sign_ops (lsb : bool) (x0 x1 : Z) : list wop :=
  let a := Z.abs x0 in let b := Z.abs x1 in
  sign_op x0 (msb_part lsb a b x0) ++ sign_op x1 (msb_part lsb a b x1).

Definition lsb_first (lsb : bool) (a b : Z) : Z := b2z (lsb && (0 <? nesc a b)).

Definition pair_w (lut : Z -> Z) (lsb : bool) (x0 x1 : Z) : list wop :=
  let a := Z.abs x0 in let b := Z.abs x1 in
  let l := lsb_first lsb a b in
  (if l =? 0 then [] else [sym_op lut a b 0]) ++
  esc_w (Z.to_nat (nesc a b - l)) lut a b l ++ sign_ops lsb x0 x1 ++ [sym_op lut a b (nesc a b)].

Definition pair_r (lut : Z -> Z) (lsb : bool) (x0 x1 : Z) : list wop :=
  let a := Z.abs x0 in let b := Z.abs x1 in
  let l := lsb_first lsb a b in
  sym_op lut a b 0 :: (if l =? 0 then [] else [sym_op lut a b 1]) ++
  esc_r (Z.to_nat (nesc a b - l)) lut a b l ++ sign_ops lsb x0 x1.

(** The streams are the same. *)
Lemma esc_bits n lut a b : forall j, bits_of (esc_w n lut a b j) = bits_of (esc_r n lut a b j).
Proof.
  induction n as [|n IH]; intros j; [reflexivity|].
  cbn [esc_w esc_r bit_ops app bits_of filter is_bits sym_op]. do 2 f_equal. apply IH.
Qed.
Lemma esc_syms n lut a b : forall j,
  syms_of (esc_w n lut a b j) ++ [sym_op lut a b (j + Z.of_nat n)] =
  sym_op lut a b j :: syms_of (esc_r n lut a b j).
Proof.
  induction n as [|n IH]; intros j.
  - cbn [esc_w esc_r syms_of filter app]. rewrite Z.add_0_r. reflexivity.
  - cbn [esc_w esc_r bit_ops app syms_of filter is_bits sym_op negb].
    change (filter (fun o => negb (is_bits o)) (esc_w n lut a b (j + 1)))
      with (syms_of (esc_w n lut a b (j + 1))).
    change (filter (fun o => negb (is_bits o)) (esc_r n lut a b (j + 1)))
      with (syms_of (esc_r n lut a b (j + 1))).
    change (PutSym (spec_model lut (Z.min j 3)) (sym_at a b j)) with (sym_op lut a b j).
    change (PutSym (spec_model lut (Z.min (j + 1) 3)) (sym_at a b (j + 1)))
      with (sym_op lut a b (j + 1)).
    replace (j + Z.of_nat (S n)) with (j + 1 + Z.of_nat n) by lia.
    f_equal. apply IH.
Qed.

Lemma sign_syms lsb x0 x1 : syms_of (sign_ops lsb x0 x1) = [].
Proof.
  unfold sign_ops, sign_op. rewrite syms_of_app.
  destruct (msb_part _ _ _ x0 =? 0), (msb_part _ _ _ x1 =? 0); reflexivity.
Qed.

Lemma nesc_nonneg a b : 0 <= nesc a b.
Proof.
  unfold nesc. destruct (Z.lor a b <? 4) eqn:E; [lia|].
  pose proof (Z.log2_le_mono 4 (Z.lor a b) ltac:(lia)). change (Z.log2 4) with 2 in H. lia.
Qed.

Lemma lsb_first_le lsb a b : 0 <= lsb_first lsb a b <= nesc a b /\
  (lsb_first lsb a b = 0 \/ lsb_first lsb a b = 1).
Proof.
  unfold lsb_first. pose proof (nesc_nonneg a b). destruct lsb; cbn [andb b2z]; [|lia].
  destruct (0 <? nesc a b) eqn:E; cbn [b2z]; lia.
Qed.

Lemma pair_streams lut lsb x0 x1 s :
  fold_left astep (pair_r lut lsb x0 x1) s = fold_left astep (pair_w lut lsb x0 x1) s.
Proof.
  apply same_streams; unfold pair_r, pair_w;
    set (a := Z.abs x0); set (b := Z.abs x1);
    destruct (lsb_first_le lsb a b) as (Hl & Hc); set (l := lsb_first lsb a b) in *;
    set (n := Z.to_nat (nesc a b - l)).
  - change (sym_op lut a b 0 :: ?t) with ([sym_op lut a b 0] ++ t).
    rewrite !bits_of_app. rewrite <- esc_bits.
    change (bits_of [sym_op lut a b 0]) with (@nil wop).
    change (bits_of [sym_op lut a b (nesc a b)]) with (@nil wop). rewrite !app_nil_r.
    destruct (l =? 0); reflexivity.
  - change (sym_op lut a b 0 :: ?t) with ([sym_op lut a b 0] ++ t).
    rewrite !syms_of_app. rewrite sign_syms, app_nil_r.
    change (syms_of [sym_op lut a b 0]) with [sym_op lut a b 0].
    change (syms_of [sym_op lut a b (nesc a b)]) with [sym_op lut a b (nesc a b)].
    pose proof (esc_syms n lut a b l) as H. replace (l + Z.of_nat n) with (nesc a b) in H by lia.
    cbn [app]. rewrite H. destruct Hc as [E|E]; rewrite E; reflexivity.
Qed.

(** ** Magnitudes *)
Lemma log2_lt x n : 0 <= x -> 0 <= n -> Z.log2 x < n -> x < 2 ^ n.
Proof.
  intros Hx Hn H. destruct (Z.eq_dec x 0) as [->|]; [apply pow2_pos; lia|].
  apply Z.log2_lt_pow2; lia.
Qed.

Lemma lt_log2 x n : 0 <= x -> 1 <= n -> x < 2 ^ n -> Z.log2 x <= n - 1.
Proof.
  intros Hx Hn H. destruct (Z.eq_dec x 0) as [->|]; [cbn; lia|].
  pose proof (proj1 (Z.log2_lt_pow2 x n ltac:(lia)) H). lia.
Qed.

Lemma nesc_le a b n : 0 <= a -> 0 <= b -> 0 <= n -> a < 2 ^ (n + 2) -> b < 2 ^ (n + 2) ->
  nesc a b <= n.
Proof.
  intros Ha Hb Hn H1 H2. unfold nesc. destruct (Z.lor a b <? 4); [lia|].
  rewrite Z.log2_lor by assumption.
  pose proof (lt_log2 a (n + 2) Ha ltac:(lia) H1). pose proof (lt_log2 b (n + 2) Hb ltac:(lia) H2).
  lia.
Qed.

Lemma nesc_bound a b : 0 <= a -> 0 <= b -> a < 2 ^ (nesc a b + 2) /\ b < 2 ^ (nesc a b + 2).
Proof.
  intros Ha Hb.
  assert (H : Z.log2 (Z.lor a b) < nesc a b + 2).
  { unfold nesc. destruct (Z.lor a b <? 4) eqn:E; [|lia].
    assert (0 <= Z.lor a b) by (apply Z.lor_nonneg; auto).
    pose proof (lt_log2 (Z.lor a b) 2 ltac:(lia) ltac:(lia) ltac:(cbn; lia)). lia. }
  rewrite Z.log2_lor in H by assumption. pose proof (nesc_nonneg a b).
  split; apply log2_lt; lia.
Qed.

Lemma nesc_m a b k : 0 <= a -> 0 <= b -> 0 <= k ->
  (shr (Z.lor a b) (2 + k) =? 0) = (nesc a b <=? k).
Proof.
  intros Ha Hb Hk. assert (HM : 0 <= Z.lor a b) by (apply Z.lor_nonneg; auto).
  unfold nesc, shr. set (M := Z.lor a b) in *. clearbody M.
  destruct (M <? 4) eqn:E.
  - rewrite Z.div_small; [lia|]. split; [lia|].
    pose proof (Z.pow_le_mono_r 2 2 (2 + k) ltac:(lia) ltac:(lia)) as H. change (2 ^ 2) with 4 in H. lia.
  - destruct (Z.log2 M - 1 <=? k) eqn:E2.
    + rewrite Z.div_small; [reflexivity|]. split; [lia|]. apply log2_lt; lia.
    + assert (H : 2 ^ (2 + k) <= M) by (apply Z.log2_le_pow2; lia).
      pose proof (pow2_pos (2 + k) ltac:(lia)).
      pose proof (Z.div_le_lower_bound M (2 ^ (2 + k)) 1 ltac:(lia) ltac:(lia)). lia.
Qed.

Lemma shr_shr x i j : 0 <= i -> 0 <= j -> shr (shr x i) j = shr x (i + j).
Proof.
  intros Hi Hj. unfold shr. rewrite Z.div_div by (pose proof (pow2_pos i); pose proof (pow2_pos j); lia).
  rewrite Z.pow_add_r by lia. reflexivity.
Qed.

Lemma shr_nesc a b : 0 <= a -> 0 <= b -> 0 <= shr a (nesc a b) < 4 /\ 0 <= shr b (nesc a b) < 4.
Proof.
  intros Ha Hb. destruct (nesc_bound a b Ha Hb) as (H1 & H2). pose proof (nesc_nonneg a b) as Hn.
  set (n := nesc a b) in *. clearbody n. pose proof (pow2_pos n ltac:(lia)) as Hp.
  rewrite Z.pow_add_r in H1, H2 by lia. change (2 ^ 2) with 4 in *. unfold shr.
  split; (split; [apply Z.div_pos; lia|apply Z.div_lt_upper_bound; lia]).
Qed.

Lemma sym_at_range a b j : 0 <= a -> 0 <= b -> 0 <= sym_at a b j <= 16.
Proof.
  intros Ha Hb. unfold sym_at. destruct (j <? nesc a b); [lia|].
  pose proof (shr_nesc a b Ha Hb). lia.
Qed.
Lemma sym_at_esc a b j : 0 <= a -> 0 <= b -> (16 <=? sym_at a b j) = (j <? nesc a b).
Proof.
  intros Ha Hb. unfold sym_at. destruct (j <? nesc a b) eqn:E; [lia|].
  pose proof (shr_nesc a b Ha Hb). lia.
Qed.

(** ** Writing a pair is the sequence [pair_w] *)
Lemma put_escapes_ops fuel : forall w lut a b k, 0 <= a -> 0 <= b -> 0 <= k <= nesc a b ->
  nesc a b - k < Z.of_nat fuel ->
  put_escapes fuel w lut a b (shr (Z.lor a b) (2 + k)) k =
  (fold_left wstep (esc_w (Z.to_nat (nesc a b - k)) lut a b k) w, nesc a b).
Proof.
  induction fuel as [|fuel IH]; intros w lut a b k Ha Hb Hk Hf; [lia|].
  cbn [put_escapes]. rewrite nesc_m by lia.
  destruct (nesc a b <=? k) eqn:E.
  - replace (nesc a b - k) with 0 by lia. cbn [Z.to_nat esc_w fold_left]. f_equal. lia.
  - rewrite shr_shr by lia. replace (2 + k + 1) with (2 + (k + 1)) by lia.
    rewrite IH by lia.
    replace (Z.to_nat (nesc a b - k)) with (S (Z.to_nat (nesc a b - (k + 1)))) by lia.
    cbn [esc_w bit_ops app fold_left wstep sym_op].
    replace (sym_at a b k) with 16 by (unfold sym_at; replace (k <? nesc a b) with true by lia; reflexivity).
    reflexivity.
Qed.

Lemma msb_part_0 lsb a b x : (msb_part lsb a b x =? 0) = (shr (Z.abs x) (lsb_first lsb a b) =? 0).
Proof.
  unfold msb_part, lsb_first, shr. destruct (lsb && (0 <? nesc a b)); cbn [b2z].
  - change (2 ^ 1) with 2.
    pose proof (Z.div_pos (Z.abs x) 2 ltac:(lia) ltac:(lia)).
    destruct (Z.abs x / 2 =? 0) eqn:E.
    + replace (Z.abs x / 2) with 0 by lia. lia.
    + assert (x <> 0) by (intros ->; cbn in E; discriminate).
      assert (Z.sgn x <> 0) by (rewrite Z.sgn_null_iff; assumption).
      apply Z.eqb_neq. intros C. apply Z.mul_eq_0 in C. lia.
  - change (2 ^ 0) with 1. rewrite Z.div_1_r. lia.
Qed.

Lemma put_pair_ops w lut lsb state x0 x1 : Z.abs x0 < 2 ^ 32 -> Z.abs x1 < 2 ^ 32 ->
  put_pair w lut lsb state x0 x1 =
  (fold_left wstep (pair_w lut lsb x0 x1) w,
   let n := nesc (Z.abs x0) (Z.abs x1) in
   next_state state (Z.min n 3) (shr (Z.abs x0) n) (shr (Z.abs x1) n)).
Proof.
  intros H0 H1. unfold put_pair, pair_w, sign_ops, sign_op. rewrite !msb_part_0.
  set (a := Z.abs x0) in *. set (b := Z.abs x1) in *.
  assert (Ha : 0 <= a) by (unfold a; lia). assert (Hb : 0 <= b) by (unfold b; lia).
  pose proof (nesc_le a b 30 Ha Hb ltac:(lia) H0 H1) as Hn.
  pose proof (nesc_nonneg a b) as Hn0.
  replace (shr (Z.lor a b) 2) with (shr (Z.lor a b) (2 + 0)) by reflexivity.
  rewrite nesc_m by lia.
  destruct (nesc a b <=? 0) eqn:E.
  - assert (En : nesc a b = 0) by lia.
    assert (El : lsb_first lsb a b = 0).
    { unfold lsb_first. rewrite En. destruct lsb; reflexivity. }
    rewrite El, En. cbn [Z.eqb app Z.sub Z.to_nat esc_w Z.opp Z.add].
    replace (shr a 0) with a by (unfold shr; change (2 ^ 0) with 1; rewrite Z.div_1_r; reflexivity).
    replace (shr b 0) with b by (unfold shr; change (2 ^ 0) with 1; rewrite Z.div_1_r; reflexivity).
    change (Z.min 0 3) with 0. f_equal. rewrite !fold_left_app.
    unfold sym_op, sym_at. rewrite En. change (0 <? 0) with false. cbv iota. change (Z.min 0 3) with 0.
    replace (shr a 0) with a by (unfold shr; change (2 ^ 0) with 1; rewrite Z.div_1_r; reflexivity).
    replace (shr b 0) with b by (unfold shr; change (2 ^ 0) with 1; rewrite Z.div_1_r; reflexivity).
    destruct (a =? 0), (b =? 0); reflexivity.
  - assert (El : lsb_first lsb a b = b2z lsb).
    { unfold lsb_first. replace (0 <? nesc a b) with true by lia. rewrite andb_true_r. reflexivity. }
    rewrite El, shr_shr by (destruct lsb; cbn; lia). change (2 + 0) with 2.
    rewrite put_escapes_ops by (destruct lsb; cbn; lia).
    rewrite !shr_shr by (destruct lsb; cbn; lia).
    replace (b2z lsb + (nesc a b - b2z lsb)) with (nesc a b) by lia. cbv zeta. f_equal.
    rewrite !fold_left_app.
    replace (sym_op lut a b (nesc a b)) with
      (PutSym (spec_model lut (Z.min (nesc a b) 3)) (shr a (nesc a b) + 4 * shr b (nesc a b)))
      by (unfold sym_op, sym_at; rewrite Z.ltb_irrefl; reflexivity).
    assert (E0 : fold_left wstep (if b2z lsb =? 0 then [] else [sym_op lut a b 0]) w =
      (if lsb then put_symbol w (spec_model lut 0) 16 else w)).
    { unfold sym_op, sym_at. replace (0 <? nesc a b) with true by lia. destruct lsb; reflexivity. }
    rewrite E0. set (w1 := if lsb then put_symbol w (spec_model lut 0) 16 else w).
    set (w2 := fold_left wstep (esc_w (Z.to_nat (nesc a b - b2z lsb)) lut a b (b2z lsb)) w1).
    destruct (shr a (b2z lsb) =? 0), (shr b (b2z lsb) =? 0); reflexivity.
Qed.
