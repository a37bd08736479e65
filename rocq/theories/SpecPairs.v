(** * Spectrum coding: reading pairs back *)
From Coq Require Import ZArith List Bool Lia ZifyBool.
From Verif Require Import Base BaseProofs Tables TableProofs BitsModel ConfigModel SpecModel.
From Verif Require Import BitsWriteSafe BitsAbstract BitsWriteSim BitsReadSim BitsReadSafe.
From Verif Require Import SideProofs SpecProofs.
Import ListNotations.
Local Open Scope Z_scope.

(** ** The tables *)
Definition LutOk (lut : Z -> Z) : Prop := forall k, 0 <= k < 4 -> 0 <= lut k < 64.

Lemma lookup_ok high h state : 0 <= h < 2 -> 0 <= state < 256 -> LutOk (lookup high h state).
Proof.
  intros Hh Hs k Hk. unfold lookup. destruct spectrum_lookup_ok as (H1 & H2 & _).
  assert (Hb : 0 <= b2z high < zlen spectrum_lookup) by (rewrite H2; destruct high; cbn; lia).
  pose proof (proj1 (forallb_forall _ _) H1 _ (znth_In _ [] _ Hb)) as H3. clear H1 H2 Hb.
  set (t1 := znth spectrum_lookup (b2z high) []) in *. clearbody t1. cbv beta in H3.
  apply andb_true_iff in H3. destruct H3 as (H3 & Hl).
  pose proof (proj1 (forallb_forall _ _) H3 _ (znth_In t1 [] h ltac:(lia))) as H4.
  set (t2 := znth t1 h []) in *. clearbody t2. cbv beta in H4.
  apply andb_true_iff in H4. destruct H4 as (H4 & Hl2).
  pose proof (proj1 (forallb_forall _ _) H4 _ (znth_In t2 [] state ltac:(lia))) as H5.
  set (t3 := znth t2 state []) in *. clearbody t3. cbv beta in H5.
  apply andb_true_iff in H5. destruct H5 as (Hl3 & H5).
  pose proof (proj1 (forallb_forall _ _) H5 _ (znth_In t3 0 k ltac:(lia))) as H6. cbv beta in H6. lia.
Qed.

Lemma half_range ne i : 0 <= half ne i < 2.
Proof. unfold half. destruct (i <? shr (ne + 2) 1); lia. Qed.

Lemma spec_model_In lut k : LutOk lut -> 0 <= k < 4 -> In (spec_model lut k) spectrum_models.
Proof.
  intros Hl Hk. destruct spectrum_lookup_ok as (_ & _ & E). specialize (Hl k Hk).
  apply znth_In. split; [apply Hl|]. eapply Z.lt_le_trans; [apply Hl|].
  apply Z.eq_le_incl. symmetry. exact E.
Qed.
Lemma spec_model_ok lut k s : LutOk lut -> 0 <= k < 4 -> 0 <= s <= 16 ->
  op_ok (PutSym (spec_model lut k) s).
Proof.
  intros Hl Hk Hs. pose proof (spec_model_In lut k Hl Hk) as Hi. cbn [op_ok]. unfold ok_sym.
  pose proof (spectrum_models_wf _ Hi). pose proof (spectrum_models_pos _ s Hi Hs).
  split; [assumption|]. split; [apply Hs|assumption].
Qed.

Lemma flag_oob_false r : r_flag_oob r false = r.
Proof. destruct r. unfold r_flag_oob. cbn. rewrite orb_false_r. reflexivity. Qed.

Lemma get_spec_symbol_eq r lut k : LutOk lut -> 0 <= k < 4 ->
  get_spec_symbol r lut k = get_symbol r (spec_model lut k).
Proof.
  intros Hl Hk. unfold get_spec_symbol, inb. specialize (Hl k Hk).
  replace (negb _) with false by lia. rewrite flag_oob_false. reflexivity.
Qed.

(** ** Operations are valid *)
Lemma bit_ops_ok a b j : Forall op_ok (bit_ops a b j).
Proof.
  unfold bit_ops. rewrite !land_1. cbn [op_ok].
  pose proof (Z.mod_pos_bound (shr a j) 2 ltac:(lia)). pose proof (Z.mod_pos_bound (shr b j) 2 ltac:(lia)).
  repeat constructor; cbn [op_ok]; change (2 ^ 1) with 2; lia.
Qed.
Lemma sym_op_ok lut a b j : LutOk lut -> 0 <= a -> 0 <= b -> 0 <= j -> op_ok (sym_op lut a b j).
Proof.
  intros Hl Ha Hb Hj. unfold sym_op. apply spec_model_ok; [assumption|lia|apply sym_at_range; assumption].
Qed.
Lemma esc_r_ok n lut a b : LutOk lut -> 0 <= a -> 0 <= b -> forall j, 0 <= j ->
  Forall op_ok (esc_r n lut a b j).
Proof.
  intros Hl Ha Hb. induction n as [|n IH]; intros j Hj; cbn [esc_r]; [constructor|].
  apply Forall_app. split; [apply bit_ops_ok|].
  constructor; [apply sym_op_ok; auto; lia|apply IH; lia].
Qed.
Lemma esc_w_ok n lut a b : LutOk lut -> 0 <= a -> 0 <= b -> forall j, 0 <= j ->
  Forall op_ok (esc_w n lut a b j).
Proof.
  intros Hl Ha Hb. induction n as [|n IH]; intros j Hj; cbn [esc_w]; [constructor|].
  apply Forall_app. split; [apply bit_ops_ok|].
  constructor; [apply sym_op_ok; auto; lia|apply IH; lia].
Qed.
Lemma sign_op_ok x y : Forall op_ok (sign_op x y).
Proof.
  unfold sign_op. destruct (y =? 0); constructor; [|constructor].
  destruct (x <? 0); cbn; lia.
Qed.
Lemma sign_ops_ok lsb x0 x1 : Forall op_ok (sign_ops lsb x0 x1).
Proof. apply Forall_app. split; apply sign_op_ok. Qed.

Lemma pair_w_ok lut lsb x0 x1 : LutOk lut -> Forall op_ok (pair_w lut lsb x0 x1).
Proof.
  intros Hl. unfold pair_w. destruct (lsb_first_le lsb (Z.abs x0) (Z.abs x1)) as (H & _).
  repeat (apply Forall_app; split).
  - destruct (_ =? 0); constructor; [|constructor]. apply sym_op_ok; auto; lia.
  - apply esc_w_ok; auto; lia.
  - apply sign_op_ok.
  - apply sign_op_ok.
  - constructor; [|constructor]. apply sym_op_ok; auto; try lia.
Qed.
Lemma pair_r_ok lut lsb x0 x1 : LutOk lut -> Forall op_ok (pair_r lut lsb x0 x1).
Proof.
  intros Hl. unfold pair_r. destruct (lsb_first_le lsb (Z.abs x0) (Z.abs x1)) as (H & _).
  constructor; [apply sym_op_ok; auto; lia|].
  repeat (apply Forall_app; split).
  - destruct (_ =? 0); constructor; [|constructor]. apply sym_op_ok; auto; lia.
  - apply esc_r_ok; auto; lia.
  - apply sign_op_ok.
  - apply sign_op_ok.
Qed.

(** ** Reading a pair *)

(** Bits [l] to [j - 1] of [a]. *)
Definition low_bits (l a j : Z) : Z := a mod 2 ^ j - a mod 2 ^ l.

Lemma low_bits_range l a j : 0 <= l <= j -> 0 <= low_bits l a j < 2 ^ j.
Proof.
  intros H. unfold low_bits.
  pose proof (pow2_pos l ltac:(lia)). pose proof (pow2_pos j ltac:(lia)).
  pose proof (Z.mod_pos_bound a (2 ^ j) ltac:(lia)). pose proof (Z.mod_pos_bound a (2 ^ l) ltac:(lia)).
  assert (E : a mod 2 ^ l = (a mod 2 ^ j) mod 2 ^ l).
  { replace j with (l + (j - l)) by lia. rewrite Z.pow_add_r by lia.
    pose proof (pow2_pos (j - l) ltac:(lia)).
    rewrite Z.rem_mul_r by lia. rewrite (Z.mul_comm (2 ^ l)), Z.mod_add by lia.
    rewrite Z.mod_mod by lia. reflexivity. }
  pose proof (Z.mod_le (a mod 2 ^ j) (2 ^ l) ltac:(lia) ltac:(lia)). lia.
Qed.

Lemma low_bits_step l a j : 0 <= l <= j ->
  Z.lor (low_bits l a j) (shl (Z.land (shr a j) 1) j) = low_bits l a (j + 1).
Proof.
  intros H. rewrite land_1. unfold shl. rewrite lor_add by (try apply low_bits_range; lia).
  unfold low_bits, shr. rewrite (Z.pow_add_r 2 j 1) by lia. change (2 ^ 1) with 2.
  pose proof (pow2_pos j ltac:(lia)). rewrite Z.rem_mul_r by lia. lia.
Qed.

Lemma low_bits_top l a j : 0 <= l <= j -> 0 <= a ->
  Z.lor (low_bits l a j) (shl (shr a j) j) = a - a mod 2 ^ l.
Proof.
  intros H Ha. unfold shl. rewrite lor_add by (try apply low_bits_range; lia).
  unfold low_bits, shr. pose proof (pow2_pos j ltac:(lia)).
  pose proof (Z.div_mod a (2 ^ j) ltac:(lia)). lia.
Qed.

Lemma get_escapes_reads lut ms l a b : LutOk lut -> 0 <= a -> 0 <= b -> nesc a b <= ms ->
  forall n fuel j, n = Z.to_nat (nesc a b - j) -> 0 <= l <= j -> j <= nesc a b -> (n <= fuel)%nat ->
  Reads (fun r => get_escapes fuel r lut ms (low_bits l a j) (low_bits l b j) (Z.min j 3) j (sym_at a b j))
    (esc_r n lut a b j)
    (low_bits l a (nesc a b), low_bits l b (nesc a b), Z.min (nesc a b) 3, nesc a b, sym_at a b (nesc a b)).
Proof.
  intros Hl Ha Hb Hms. induction n as [|n IH]; intros fuel j Hn Hj Hj2 Hf.
  - assert (j = nesc a b) by lia. subst j. cbn [esc_r].
    eapply Reads_ext; [|apply Reads_ret]. intros r. cbv beta.
    destruct fuel; [reflexivity|]. cbn [get_escapes].
    rewrite sym_at_esc by assumption. rewrite Z.ltb_irrefl. reflexivity.
  - destruct fuel as [|fuel]; [lia|]. cbn [esc_r get_escapes].
    rewrite sym_at_esc by assumption.
    replace (j <? nesc a b) with true by lia. replace (j <? ms) with true by lia. cbn [andb].
    unfold bit_ops. cbn [app].
    pose proof (bit_ops_ok a b j) as Hb1. unfold bit_ops in Hb1.
    pose proof (Forall_inv Hb1) as O1. pose proof (Forall_inv (Forall_inv_tail Hb1)) as O2.
    pose proof (sym_op_ok lut a b (j + 1) Hl Ha Hb ltac:(lia)) as O3.
    pose proof (esc_r_ok n lut a b Hl Ha Hb (j + 1) ltac:(lia)) as O4.
    apply Reads_bit; [exact O1|repeat (apply Forall_cons; [assumption|]); assumption|].
    apply Reads_bit; [exact O2|repeat (apply Forall_cons; [assumption|]); assumption|].
    unfold sym_op in *. cbv zeta.
    replace (Z.min j 3 + b2z (Z.min j 3 <? 3)) with (Z.min (j + 1) 3)
      by (destruct (Z.min j 3 <? 3) eqn:E; cbn; lia).
    eapply Reads_ext; [intros r; rewrite get_spec_symbol_eq by (assumption || lia); reflexivity|].
    apply Reads_sym; [exact O3|exact O4|].
    rewrite !low_bits_step by lia.
    apply IH; lia.
Qed.

Lemma get_signed_reads x m : m = 0 \/ (Z.abs m <> 0 /\ m = if x <? 0 then - Z.abs m else Z.abs m) ->
  Reads (fun r => get_signed r (Z.abs m)) (sign_op x m) m.
Proof.
  intros H. unfold get_signed, sign_op. destruct (m =? 0) eqn:E.
  - assert (m = 0) by lia. subst m. apply Reads_ret.
  - destruct H as [H|(H & E2)]; [lia|]. replace (Z.abs m =? 0) with false by lia.
    pose proof (sign_op_ok x 1) as Ho. unfold sign_op in Ho. change (1 =? 0) with false in Ho.
    apply Forall_inv in Ho.
    apply Reads_bit; [exact Ho|constructor|].
    assert (E3 : (if b2z (x <? 0) =? 0 then Z.abs m else - Z.abs m) = m)
      by (destruct (x <? 0); cbn; lia).
    rewrite E3. apply Reads_ret.
Qed.

Lemma msb_part_sign lsb a b x :
  let m := msb_part lsb a b x in
  m = 0 \/ (Z.abs m <> 0 /\ m = if x <? 0 then - Z.abs m else Z.abs m).
Proof.
  cbv zeta. unfold msb_part. destruct (lsb && (0 <? nesc a b)).
  - pose proof (Z.div_pos (Z.abs x) 2 ltac:(lia) ltac:(lia)).
    set (q := Z.abs x / 2) in *. clearbody q.
    destruct (Z.eq_dec q 0) as [->|Hq]; [left; lia|].
    destruct (x <? 0) eqn:E; destruct (Z.eq_dec x 0) as [->|].
    + lia.
    + right. rewrite Z.sgn_neg by lia. lia.
    + left. reflexivity.
    + right. rewrite Z.sgn_pos by lia. lia.
  - destruct (x <? 0) eqn:E; lia.
Qed.

Lemma msb_part_abs lsb a b x :
  Z.abs (msb_part lsb a b x) = Z.abs x - Z.abs x mod 2 ^ lsb_first lsb a b.
Proof.
  unfold msb_part, lsb_first. destruct (lsb && (0 <? nesc a b)); cbn [b2z].
  - change (2 ^ 1) with 2. pose proof (Z.div_mod (Z.abs x) 2 ltac:(lia)).
    pose proof (Z.div_pos (Z.abs x) 2 ltac:(lia) ltac:(lia)).
    destruct (Z.lt_trichotomy x 0) as [Hx|[->|Hx]].
    + rewrite Z.sgn_neg by assumption. lia.
    + reflexivity.
    + rewrite Z.sgn_pos by assumption. lia.
  - change (2 ^ 0) with 1. rewrite Z.mod_1_r. lia.
Qed.

(** The state after a pair. *)
Definition pair_state (state x0 x1 : Z) : Z :=
  let n := nesc (Z.abs x0) (Z.abs x1) in
  next_state state (Z.min n 3) (shr (Z.abs x0) n) (shr (Z.abs x1) n).

Definition pair_end (state : Z) (e : Z * Z * Z * Z * Z) (r : rst) : option (Z * Z * Z) * rst :=
  let '(u, v, k, sh, s) := e in
  if 16 <=? s then (None, r)
  else
    let a := s mod 4 in
    let b := s / 4 in
    let '(x0, r) := get_signed r (Z.lor u (shl a sh)) in
    let '(x1, r) := get_signed r (Z.lor v (shl b sh)) in
    (Some (x0, x1, next_state state k a b), r).
Definition pair_mid (lut : Z -> Z) (ms : Z) (state : Z) (e : Z * Z * Z) (r : rst) :=
  let '(k, sh, s) := e in
  let '(e, r) := get_escapes 32 r lut ms 0 0 k sh s in pair_end state e r.

Lemma get_pair_eq r lut ms lsb state :
  get_pair r lut ms lsb state =
  let '(s, r) := get_spec_symbol r lut 0 in
  let '(e, r) := (if lsb && (16 <=? s)
    then let '(s, r) := get_spec_symbol r lut 1 in ((1, 1, s), r)
    else ((0, 0, s), r)) in pair_mid lut ms state e r.
Proof.
  unfold get_pair, pair_mid, pair_end. destruct (get_spec_symbol r lut 0) as [s r1].
  destruct (if lsb && (16 <=? s) then _ else _) as [[[k sh] s2] r2].
  destruct (get_escapes 32 r2 lut ms 0 0 k sh s2) as [[[[[u v] k3] sh3] s3] r3]. reflexivity.
Qed.

Lemma get_pair_reads lut ms lsb state x0 x1 : LutOk lut -> 0 <= ms <= 30 ->
  Z.abs x0 < 2 ^ (ms + 2) -> Z.abs x1 < 2 ^ (ms + 2) ->
  let a := Z.abs x0 in let b := Z.abs x1 in
  Reads (fun r => get_pair r lut ms lsb state) (pair_r lut lsb x0 x1)
    (Some (msb_part lsb a b x0, msb_part lsb a b x1, pair_state state x0 x1)).
Proof.
  intros Hl Hms H0 H1 a b. fold a in H0. fold b in H1.
  assert (Ha : 0 <= a) by (unfold a; lia). assert (Hb : 0 <= b) by (unfold b; lia).
  pose proof (nesc_nonneg a b) as Hn.
  assert (Hn2 : nesc a b <= ms) by (apply nesc_le; lia).
  destruct (lsb_first_le lsb a b) as (Hf & Hc).
  pose proof (pair_r_ok lut lsb x0 x1 Hl) as Hok. unfold pair_r in *. fold a b in Hok |- *.
  eapply Reads_ext; [intros r; symmetry; apply get_pair_eq|]. set (l := lsb_first lsb a b) in *.
  pose proof (Forall_inv Hok) as O1. apply Forall_inv_tail in Hok. unfold sym_op at 1 in O1.
  apply Forall_app in Hok. destruct Hok as (O2 & O3). apply Forall_app in O3. destruct O3 as (O3 & O4).
  unfold sym_op at 1. change (Z.min 0 3) with 0 in *.
  eapply Reads_ext; [intros r; rewrite get_spec_symbol_eq by (assumption || lia); reflexivity|].
  apply Reads_sym; [exact O1| |].
  { apply Forall_app. split; [assumption|]. apply Forall_app. split; assumption. }
  rewrite sym_at_esc by assumption.
  (* the first escape of the LSB mode *)
  apply (Reads_bind
    (fun r => if lsb && (0 <? nesc a b)
       then let '(s, r) := get_spec_symbol r lut 1 in ((1, 1, s), r)
       else ((0, 0, sym_at a b 0), r))
    (pair_mid lut ms state) _ _ (l, l, sym_at a b l)); [exact O2| | |].
  { apply Forall_app. split; assumption. }
  { unfold l, lsb_first. destruct (lsb && (0 <? nesc a b)) eqn:E; cbn [b2z].
    - change (1 =? 0) with false. cbv iota.
      eapply Reads_ext; [intros r; rewrite get_spec_symbol_eq by (assumption || lia); reflexivity|].
      unfold sym_op. change (Z.min 1 3) with 1.
      apply Reads_sym; [|constructor|apply Reads_ret].
      pose proof (sym_op_ok lut a b 1 Hl Ha Hb ltac:(lia)) as H. exact H.
    - apply Reads_ret. }
  unfold pair_mid.
  apply (Reads_bind
    (fun r => get_escapes 32 r lut ms 0 0 l l (sym_at a b l))
    (pair_end state) _ _
    (low_bits l a (nesc a b), low_bits l b (nesc a b), Z.min (nesc a b) 3, nesc a b, sym_at a b (nesc a b)));
    [exact O3|exact O4| |].
  { pose proof (get_escapes_reads lut ms l a b Hl Ha Hb Hn2 (Z.to_nat (nesc a b - l)) 32%nat l
      eq_refl ltac:(lia) ltac:(lia) ltac:(lia)) as H.
    replace (Z.min l 3) with l in H by lia.
    replace (low_bits l a l) with 0 in H by (unfold low_bits; lia).
    replace (low_bits l b l) with 0 in H by (unfold low_bits; lia). exact H. }
  unfold pair_end. rewrite sym_at_esc by assumption. rewrite Z.ltb_irrefl. cbv zeta.
  unfold sym_at. rewrite Z.ltb_irrefl.
  destruct (shr_nesc a b Ha Hb) as (Hs1 & Hs2).
  replace ((shr a (nesc a b) + 4 * shr b (nesc a b)) mod 4) with (shr a (nesc a b))
    by (rewrite Z.mul_comm, Z.mod_add, Z.mod_small by lia; reflexivity).
  replace ((shr a (nesc a b) + 4 * shr b (nesc a b)) / 4) with (shr b (nesc a b))
    by (rewrite Z.mul_comm, Z.div_add, Z.div_small by lia; reflexivity).
  rewrite !low_bits_top by lia.
  unfold l. replace (a - a mod 2 ^ lsb_first lsb a b) with (Z.abs (msb_part lsb a b x0))
    by apply msb_part_abs.
  replace (b - b mod 2 ^ lsb_first lsb a b) with (Z.abs (msb_part lsb a b x1)) by apply msb_part_abs.
  unfold sign_ops. fold a b.
  eapply Reads_bind; [apply sign_op_ok|apply sign_op_ok|apply get_signed_reads, msb_part_sign|].
  cbv beta.
  rewrite <- (app_nil_r (sign_op x1 _)).
  eapply Reads_bind; [apply sign_op_ok|constructor|apply get_signed_reads, msb_part_sign|].
  cbv beta. unfold pair_state. fold a b. apply Reads_ret.
Qed.
