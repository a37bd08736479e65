(** * Reading any byte string is safe and terminates (C08, C12, C13) *)
From Coq Require Import ZArith List Bool Lia ZifyBool.
From Verif Require Import Base BaseProofs BitsModel BitsWriteSafe BitsAbstract BitsReadSim.
Import ListNotations.
Local Open Scope Z_scope.

(** Invariant of the reader on any frame. *)
Record RB (L : Z) (r : rst) : Prop := mkRB {
  rb_bytes : bytes (r_buf r);
  rb_len : zlen (r_buf r) = L;
  rb_fw : 0 <= r_fw r <= L;
  rb_bw : 0 <= r_bw r <= L;
  rb_v : 0 <= r_v r < 2 ^ 32;
  rb_n : 0 <= r_n r <= 32;
  rb_nover : 0 <= r_nover r <= 32;
  rb_low : 0 <= r_low r < 2 ^ 24;
  rb_range : 65536 <= r_range r < 2 ^ 24;
  rb_oob : r_oob r = false;
  rb_stuck : r_stuck r = false }.

(** Fields unchanged by the arithmetic decoder. *)
Definition r_same_accu (r r' : rst) : Prop :=
  r_buf r' = r_buf r /\ r_bw r' = r_bw r /\ r_v r' = r_v r /\ r_n r' = r_n r /\
  r_nover r' = r_nover r /\ r_hw r' = r_hw r /\ r_oob r' = r_oob r /\
  r_ub r' = r_ub r /\ r_stuck r' = r_stuck r.

Lemma r_same_accu_trans a b c :
  r_same_accu a b -> r_same_accu b c -> r_same_accu a c.
Proof. unfold r_same_accu. intuition congruence. Qed.

(** ** Arithmetic decoder *)

Lemma r_renorm_step_safe L r :
  bytes (r_buf r) -> zlen (r_buf r) = L -> r_oob r = false ->
  0 <= r_fw r <= L -> 0 <= r_low r < r_range r -> 0 < r_range r < 65536 ->
  let r' := r_renorm_step r in
  r_same_accu r r' /\ 0 <= r_fw r' <= L /\ r_range r' = r_range r * 256 /\
  0 <= r_low r' < r_range r' /\ r_error r' = r_error r.
Proof.
  intros Hb HL Hoob Hfw Hlow HR.
  assert (Hget : exists b r1, ac_get r = (b, r1) /\ 0 <= b < 256 /\ r_same_accu r r1 /\
    0 <= r_fw r1 <= L /\ r_range r1 = r_range r /\ r_low r1 = r_low r /\
    r_error r1 = r_error r).
  { unfold ac_get, r_load. rewrite HL. destruct (r_fw r <? L) eqn:E.
    - eexists _, _. split; [reflexivity|].
      assert (Hin : inb (r_fw r) L = true) by (unfold inb; lia). rewrite Hin.
      split; [apply znth_bytes; exact Hb|].
      split; [unfold r_same_accu; rproj; rewrite Hoob; repeat split|].
      rproj. repeat split; lia.
    - exists 0, r. split; [reflexivity|]. split; [lia|].
      split; [unfold r_same_accu; repeat split|]. repeat split; lia. }
  destruct Hget as (b & r1 & Eg & Hbb & S1 & F1 & R1 & L1 & E1).
  unfold r_renorm_step. rewrite Eg. unfold shl. change (2 ^ 8) with 256.
  rewrite L1, R1. rewrite !u32_small by lia.
  assert (Elor : Z.lor (r_low r * 256) b = r_low r * 256 + b).
  { rewrite Z.lor_comm. change 256 with (2 ^ 8). rewrite lor_add by lia. lia. }
  rewrite Elor, land_24, Z.mod_small by lia. cbv zeta. rproj.
  split; [unfold r_same_accu in *; rproj; intuition congruence|].
  split; [exact F1|]. split; [reflexivity|]. split; [lia|exact E1].
Qed.

Lemma r_renorm_safe L r :
  bytes (r_buf r) -> zlen (r_buf r) = L -> r_oob r = false ->
  0 <= r_fw r <= L -> 0 <= r_low r < r_range r -> 0 < r_range r < 2 ^ 24 ->
  let r' := r_renorm 2 r in
  r_same_accu r r' /\ 0 <= r_fw r' <= L /\ 65536 <= r_range r' < 2 ^ 24 /\
  0 <= r_low r' < r_range r' /\ r_error r' = r_error r.
Proof.
  intros Hb HL Hoob Hfw Hlow HR. rewrite r_renorm_S.
  destruct (r_range r <? 65536) eqn:E1.
  2:{ cbv zeta. split; [unfold r_same_accu; repeat split|]. repeat split; lia. }
  destruct (r_renorm_step_safe L r Hb HL Hoob Hfw Hlow ltac:(lia))
    as (S1 & F1 & R1 & L1 & Er1).
  set (r1 := r_renorm_step r) in *. clearbody r1.
  rewrite r_renorm_S. destruct (r_range r1 <? 65536) eqn:E2.
  2:{ cbv zeta. split; [exact S1|]. split; [exact F1|]. split; [lia|]. split; [lia|exact Er1]. }
  pose proof S1 as (Sb & _ & _ & _ & _ & _ & So & _).
  destruct (r_renorm_step_safe L r1) as (S2 & F2 & R2 & L2 & Er2); try congruence; try lia.
  set (r2 := r_renorm_step r1) in *. clearbody r2.
  rewrite r_renorm_done by lia.
  cbv zeta. split; [eapply r_same_accu_trans; eauto|]. split; [exact F2|].
  split; [lia|]. split; [lia|congruence].
Qed.

Lemma get_symbol_RB L r m :
  wf_model m -> RB L r ->
  let '(s, r') := get_symbol r m in
  0 <= s <= 16 /\ 0 < sym_range m s /\ RB L r' /\ r_same_accu r r' /\
  (r_error r = true -> r_error r' = true).
Proof.
  intros Hm H. unfold get_symbol.
  assert (Er : Z.land (shr (r_range r) 10) 65535 = r_range r / 1024).
  { rewrite land_65535. unfold shr. change (2 ^ 10) with 1024.
    pose proof (rb_range _ _ H). apply Z.mod_small. split; [apply Z.div_pos; lia|].
    apply Z.div_lt_upper_bound; lia. }
  rewrite Er. set (ra := r_range r / 1024).
  pose proof (rb_range _ _ H) as HR. pose proof (rb_low _ _ H) as Hl.
  assert (Hra : 64 <= ra < 16384).
  { unfold ra. split; [apply Z.div_le_lower_bound; lia|apply Z.div_lt_upper_bound; lia]. }
  set (error := r_error r || (shl ra 10 <=? r_low r)).
  set (low := if error then 0 else r_low r).
  assert (Hlow : 0 <= low < ra * 1024).
  { unfold low, error, shl. change (2 ^ 10) with 1024.
    destruct (r_error r || (ra * 1024 <=? r_low r)) eqn:E; lia. }
  destruct (search_symbol_spec low ra m Hm ltac:(lia) Hlow) as (Hs1 & Hs2).
  set (s := search_symbol low ra m) in *. clearbody s.
  destruct (wf_model_bounds m s Hm Hs1) as (B1 & B2 & B3).
  pose proof Hm as (Hlen & _). rewrite Hlen.
  assert (Hin : inb s 17 = true) by (unfold inb; lia). rewrite Hin. cbn [negb].
  assert (Hsr : 0 < sym_range m s) by nia.
  assert (Hprod : 0 < ra * sym_range m s < 2 ^ 24) by nia.
  rewrite !u32_small by lia.
  set (r1 := r_set_ac _ _ _ _).
  assert (K : r_same_accu r r1 /\ r_fw r1 = r_fw r /\ r_low r1 = low - ra * sym_low m s /\
    r_range r1 = ra * sym_range m s /\ r_error r1 = error).
  { unfold r1, r_same_accu. rproj. rewrite (rb_oob _ _ H). repeat split. }
  clearbody r1. destruct K as (S1 & F1 & L1 & R1 & E1).
  pose proof S1 as (Sb & Sbw & Sv & Sn & Sno & Sh & So & Su & Ss).
  assert (Hb1 : bytes (r_buf r1)) by (rewrite Sb; exact (rb_bytes _ _ H)).
  assert (HL1 : zlen (r_buf r1) = L) by (rewrite Sb; exact (rb_len _ _ H)).
  assert (Ho1 : r_oob r1 = false) by (rewrite So; exact (rb_oob _ _ H)).
  pose proof (rb_fw _ _ H) as Hfw.
  replace (if r_range r1 <? 65536 then r_renorm 2 r1 else r1) with (r_renorm 2 r1)
    by (rewrite r_renorm_S; destruct (r_range r1 <? 65536); reflexivity).
  assert (Q1 : 0 <= r_fw r1 <= L) by (rewrite F1; exact Hfw).
  assert (Q2 : 0 <= r_low r1 < r_range r1) by (rewrite L1, R1; clear - Hs2; lia).
  assert (Q3 : 0 < r_range r1 < 2 ^ 24) by (rewrite R1; exact Hprod).
  destruct (r_renorm_safe L r1 Hb1 HL1 Ho1 Q1 Q2 Q3) as (S2 & F2 & R2 & L2 & E2).
  set (r2 := r_renorm 2 r1) in *. clearbody r2.
  split; [exact Hs1|]. split; [exact Hsr|].
  pose proof (r_same_accu_trans _ _ _ S1 S2) as S3.
  split; [|split; [exact S3|]].
  - destruct S3 as (? & ? & ? & ? & ? & ? & ? & ? & ?).
    destruct H. clear - H0 H1 H2 H3 H4 H5 H6 H7 H8 F2 R2 L2 rb_bytes0 rb_len0 rb_bw0 rb_v0
      rb_n0 rb_nover0 rb_oob0 rb_stuck0.
    constructor; try congruence; try lia.
  - intros He. rewrite E2, E1. unfold error. rewrite He. reflexivity.
Qed.

(** ** Plain bits *)

Lemma accu_load_loop_RB L n : forall r,
  RB L r -> Z.of_nat n <= r_bw r ->
  let r' := accu_load_loop n r in
  RB L r' /\ r_same_ac r r' /\ r_n r' = r_n r /\ r_nover r' = r_nover r /\
  r_bw r' = r_bw r - Z.of_nat n /\ r_ub r' = r_ub r.
Proof.
  induction n as [|n IH]; intros r H Hn; cbn [accu_load_loop].
  - cbv zeta. split; [exact H|]. split; [repeat split|]. repeat split; lia.
  - rewrite Nat2Z.inj_succ in Hn. unfold r_load. set (r1 := r_set_accu _ _ _ _).
    assert (H1 : RB L r1 /\ r_same_ac r r1 /\ r_n r1 = r_n r /\ r_nover r1 = r_nover r /\
      r_bw r1 = r_bw r - 1 /\ r_ub r1 = r_ub r).
    { pose proof (rb_bw _ _ H) as Hbw. pose proof (rb_v _ _ H) as Hv.
      pose proof (znth_bytes (r_buf r) (r_bw r - 1) (rb_bytes _ _ H)) as Hbb.
      unfold r1. rproj. split; [|repeat split].
      set (vv := Z.lor _ _).
      assert (Hvv : 0 <= vv < 2 ^ 32).
      { unfold vv, shr, shl. rewrite u32_small by lia.
        assert (0 <= r_v r / 2 ^ 8 < 2 ^ 24).
        { split; [apply Z.div_pos; lia|apply Z.div_lt_upper_bound; lia]. }
        rewrite lor_add by lia. lia. }
      destruct H. constructor; rproj; auto; try lia.
      rewrite rb_oob0, rb_len0. unfold inb. lia. }
    clearbody r1. destruct H1 as (H1 & C1 & N1 & O1 & B1 & U1).
    destruct (IH r1 H1 ltac:(lia)) as (H2 & C2 & N2 & O2 & B2 & U2).
    cbv zeta. split; [exact H2|]. split; [unfold r_same_ac in *; intuition congruence|].
    repeat split; try congruence; lia.
Qed.

Lemma accu_load_RB L r :
  RB L r ->
  let r' := accu_load r in
  RB L r' /\ r_same_ac r r' /\ r_n r' < 8.
Proof.
  intros H. pose proof (rb_n _ _ H) as Hn. pose proof (rb_bw _ _ H) as Hbw.
  assert (Hq : 0 <= r_n r / 8) by (apply Z.div_pos; lia).
  pose proof (Z.div_mod (r_n r) 8 ltac:(lia)) as Hd.
  pose proof (Z.mod_pos_bound (r_n r) 8 ltac:(lia)) as Hm.
  unfold accu_load. change (shr (r_n r) 3) with (r_n r / 8). cbv zeta.
  set (nb := Z.min (r_n r / 8) (r_bw r)).
  set (r1 := r_set_accu r (r_v r) (r_n r - 8 * nb) (r_nover r)).
  assert (H1 : RB L r1).
  { destruct H. unfold r1. constructor; rproj; auto; lia. }
  destruct (accu_load_loop_RB L (Z.to_nat nb) r1 H1) as (H2 & C2 & N2 & O2 & B2 & U2).
  { unfold r1. rproj. lia. }
  assert (C1 : r_same_ac r r1) by (repeat split).
  set (r2 := accu_load_loop _ _) in *. clearbody r2. clearbody r1.
  assert (C3 : r_same_ac r r2) by (unfold r_same_ac in *; intuition congruence).
  pose proof (rb_n _ _ H2) as Hn2. pose proof (rb_nover _ _ H2) as Ho2.
  pose proof (rb_v _ _ H2) as Hv2.
  destruct (8 <=? r_n r2) eqn:E8.
  - destruct (r_n r2 <? 32) eqn:E32.
    + split; [|split; [exact C3|rproj; lia]].
      assert (0 <= shr (r_v r2) (r_n r2) < 2 ^ 32).
      { unfold shr. pose proof (pow2_pos (r_n r2) ltac:(lia)).
        split; [apply Z.div_pos; lia|]. apply Z.div_lt_upper_bound; nia. }
      destruct H2. constructor; rproj; auto; lia.
    + split; [|split; [exact C3|rproj; lia]].
      pose proof (u32_range (r_hw r2 (r_v r2))).
      destruct H2. constructor; rproj; auto; lia.
  - split; [exact H2|]. split; [exact C3|lia].
Qed.

Lemma RB_adv L r n :
  RB L r -> 0 <= r_n r + n <= 32 -> 0 <= n ->
  let b := negb (inb (r_n r) 32 && inb n 32) in
  RB L (r_set_accu (r_flag_ub r b) (r_v r) (r_n r + n) (r_nover r)).
Proof. intros H Hn H0. destruct H. constructor; rproj; auto. Qed.

Lemma get_bits_RB L r n :
  1 <= n <= 32 -> RB L r ->
  let '(v, r') := get_bits r n in
  0 <= v < 2 ^ n /\ RB L r' /\ r_same_ac r r'.
Proof.
  intros Hn H. unfold get_bits. pose proof (rb_n _ _ H) as Hrn.
  destruct (r_n r + n <=? 32) eqn:E.
  - split; [rewrite land_mask by lia; apply Z.mod_pos_bound, pow2_pos; lia|].
    split; [exact (RB_adv L r n H ltac:(lia) ltac:(lia))|repeat split].
  - unfold get_bits_generic. cbv zeta.
    destruct (accu_load_RB L r H) as (H1 & C1 & N1).
    set (r1 := accu_load r) in *. clearbody r1. pose proof (rb_n _ _ H1) as Hn1.
    set (n1 := Z.min (32 - r_n r1) n).
    pose proof (RB_adv L r1 n1 H1 ltac:(lia) ltac:(lia)) as H2. cbv zeta in H2.
    rewrite !land_mask by lia.
    pose proof (pow2_pos n1 ltac:(lia)) as Hp1.
    set (v1 := shr (r_v r1) (r_n r1) mod 2 ^ n1).
    assert (Hv1 : 0 <= v1 < 2 ^ n1) by (apply Z.mod_pos_bound; exact Hp1).
    clearbody v1.
    set (r2 := r_set_accu _ _ (r_n r1 + n1) _) in *.
    assert (C2 : r_same_ac r r2)
      by (unfold r2, r_same_ac in *; rproj; intuition congruence).
    replace (r_set_accu (r_flag_ub r1 (negb (inb (r_n r1) 32 && inb n1 32)))
       (r_v (r_flag_ub r1 (negb (inb (r_n r1) 32 && inb n1 32))))
       (r_n (r_flag_ub r1 (negb (inb (r_n r1) 32 && inb n1 32))) + n1)
       (r_nover (r_flag_ub r1 (negb (inb (r_n r1) 32 && inb n1 32))))) with r2
      by reflexivity.
    clearbody r2.
    destruct (n - n1 =? 0) eqn:E2.
    + assert (En : n1 = n) by lia. rewrite En in *.
      split; [exact Hv1|]. split; [exact H2|exact C2].
    + destruct (accu_load_RB L r2 H2) as (H3 & C3 & N3).
      set (r3 := accu_load r2) in *. clearbody r3. pose proof (rb_n _ _ H3) as Hn3.
      pose proof (RB_adv L r3 (n - n1) H3 ltac:(lia) ltac:(lia)) as H4. cbv zeta in H4.
      pose proof (pow2_pos (n - n1) ltac:(lia)) as Hp2.
      set (v2 := shr (r_v r3) (r_n r3) mod 2 ^ (n - n1)).
      assert (Hv2 : 0 <= v2 < 2 ^ (n - n1)) by (apply Z.mod_pos_bound; exact Hp2).
      clearbody v2.
      split; [|split; [exact H4|unfold r_same_ac in *; rproj; intuition congruence]].
      unfold shl.
      assert (Epn : 2 ^ n = 2 ^ (n - n1) * 2 ^ n1)
        by (rewrite <- Z.pow_add_r by lia; f_equal; lia).
      assert (2 ^ n <= 2 ^ 32) by (apply Z.pow_le_mono_r; lia).
      assert (Hpv : 0 <= v2 * 2 ^ n1 <= 2 ^ n - 2 ^ n1) by nia.
      rewrite u32_small by lia. rewrite lor_add by lia. lia.
Qed.

Lemma r_setup_RB hw buf : bytes buf -> RB (zlen buf) (r_setup hw buf).
Proof.
  intros Hb. pose proof (zlen_nonneg buf) as H0. unfold r_setup.
  set (r0 := mkR _ _ _ _ _ _ _ _ _ _ _ _ _).
  assert (H0' : RB (zlen buf) r0) by (unfold r0; constructor; rproj; auto; lia).
  clearbody r0.
  assert (Hget : forall r, RB (zlen buf) r -> exists b r', ac_get r = (b, r') /\
    0 <= b < 256 /\ RB (zlen buf) r').
  { intros r H. unfold ac_get, r_load. rewrite (rb_len _ _ H).
    destruct (r_fw r <? zlen buf) eqn:E.
    - eexists _, _. split; [reflexivity|].
      split; [apply znth_bytes; exact (rb_bytes _ _ H)|].
      assert (Hin : inb (r_fw r) (zlen buf) = true).
      { pose proof (rb_fw _ _ H). unfold inb. lia. }
      rewrite Hin. destruct H. constructor; rproj; auto; try lia.
    - exists 0, r. split; [reflexivity|]. split; [lia|exact H]. }
  destruct (Hget r0 H0') as (b0 & r1 & -> & B0 & H1).
  destruct (Hget r1 H1) as (b1 & r2 & -> & B1 & H2).
  destruct (Hget r2 H2) as (b2 & r3 & -> & B2 & H3).
  apply accu_load_RB.
  assert (Hl : 0 <= Z.lor (Z.lor (shl b0 16) (shl b1 8)) b2 < 2 ^ 24).
  { unfold shl. rewrite (Z.lor_comm (b0 * 2 ^ 16)).
    rewrite lor_add by (change (2 ^ 8) with 256; lia).
    replace (b1 * 2 ^ 8 + b0 * 2 ^ 16)
      with ((b1 + b0 * 256) * 2 ^ 8) by (change (2 ^ 16) with (256 * 2 ^ 8); ring).
    rewrite Z.lor_comm, lor_add by (change (2 ^ 8) with 256; lia).
    change (2 ^ 8) with 256. lia. }
  destruct H3. constructor; rproj; auto.
Qed.

(** ** Any sequence of reads *)

Inductive rop :=
| GetBits (n : Z)
| GetSym (m : model).

Definition rop_ok (o : rop) : Prop :=
  match o with
  | GetBits n => 1 <= n <= 32
  | GetSym m => wf_model m
  end.

Definition rdo (r : rst) (o : rop) : Z * rst :=
  match o with
  | GetBits n => get_bits r n
  | GetSym m => get_symbol r m
  end.

(** Range of the values returned. *)
Definition rval_ok (o : rop) (v : Z) : Prop :=
  match o with
  | GetBits n => 0 <= v < 2 ^ n
  | GetSym m => 0 <= v <= 16 /\ 0 < sym_range m v
  end.

Fixpoint rdos (r : rst) (ops : list rop) : list Z * rst :=
  match ops with
  | [] => ([], r)
  | o :: ops =>
      let '(v, r) := rdo r o in
      let '(vs, r) := rdos r ops in (v :: vs, r)
  end.

Lemma rdo_RB L r o :
  rop_ok o -> RB L r -> let '(v, r') := rdo r o in rval_ok o v /\ RB L r'.
Proof.
  destruct o as [n|m]; cbn [rop_ok rdo rval_ok]; intros Ho H.
  - pose proof (get_bits_RB L r n Ho H) as Hg. destruct (get_bits r n) as [v r'].
    destruct Hg as (? & ? & _). split; assumption.
  - pose proof (get_symbol_RB L r m Ho H) as Hg. destruct (get_symbol r m) as [s r'].
    destruct Hg as (? & ? & ? & _). split; [split|]; assumption.
Qed.

Lemma rdos_RB L ops : forall r,
  Forall rop_ok ops -> RB L r ->
  let '(vs, r') := rdos r ops in Forall2 rval_ok ops vs /\ RB L r'.
Proof.
  induction ops as [|o ops IH]; intros r Ho H; cbn [rdos].
  - split; [constructor|exact H].
  - inversion Ho as [|? ? Ho1 Ho2]; subst.
    pose proof (rdo_RB L r o Ho1 H) as H1. destruct (rdo r o) as [v r1].
    destruct H1 as (V1 & H1). specialize (IH r1 Ho2 H1).
    destruct (rdos r1 ops) as [vs r2]. destruct IH as (V2 & H2).
    split; [constructor; assumption|exact H2].
Qed.

(** Plain bits requested by a sequence. *)
Definition rop_bits (o : rop) : Z := match o with GetBits n => n | GetSym _ => 0 end.
Definition rops_bits (ops : list rop) : Z := fold_right (fun o s => rop_bits o + s) 0 ops.

(** No undefined shift as long as the plain bits requested are in the frame. *)
Lemma rdos_no_ub F L ops : forall r,
  Forall (fun o => rop_ok o /\ rop_bits o <= 31) ops -> RB L r -> RA F L r ->
  0 <= F < 2 ^ (8 * L) -> r_pos L r + rops_bits ops <= 8 * L ->
  r_ub (snd (rdos r ops)) = false.
Proof.
  induction ops as [|o ops IH]; intros r Ho H HA HF Hp; cbn [rdos].
  - exact (ra_ub _ _ _ HA).
  - inversion Ho as [|? ? (Ho1 & Hb1) Ho2]; subst. cbn [rops_bits fold_right] in Hp.
    fold (rops_bits ops) in Hp.
    assert (Hpos : 0 <= rops_bits ops).
    { clear - Ho2. induction Ho2 as [|x l (Hx & _) Hl IH]; cbn; [lia|].
      fold (rops_bits l). destruct x; cbn in *; lia. }
    pose proof (rdo_RB L r o Ho1 H) as H1.
    assert (HA1 : RA F L (snd (rdo r o)) /\ r_pos L (snd (rdo r o)) = r_pos L r + rop_bits o).
    { destruct o as [n|m]; cbn [rdo rop_bits rop_ok] in *.
      - pose proof (get_bits_RA F L r n HF HA ltac:(lia) ltac:(lia)) as Hg.
        destruct (get_bits r n) as [v r']. cbn [snd]. destruct Hg as (_ & ? & _ & ?).
        split; assumption.
      - pose proof (get_symbol_RB L r m Ho1 H) as Hg. destruct (get_symbol r m) as [s r'].
        cbn [snd]. destruct Hg as (_ & _ & _ & Sa & _).
        destruct Sa as (S1 & S2 & S3 & S4 & S5 & S6 & S7 & S8 & S9).
        assert (Eb : r_base L r' = r_base L r) by (unfold r_base; congruence).
        split; [|unfold r_pos; lia].
        destruct HA. constructor; rewrite ?Eb; try congruence; try lia. }
    destruct (rdo r o) as [v r1]. cbn [snd] in HA1. destruct HA1 as (HA1 & HP1).
    destruct H1 as (_ & H1).
    specialize (IH r1 Ho2 H1 HA1 HF ltac:(lia)).
    destruct (rdos r1 ops) as [vs r2]. exact IH.
Qed.
