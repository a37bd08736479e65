(** * Side data: round trips and validation *)
From Coq Require Import ZArith List Bool Lia ZifyBool.
From Verif Require Import Base BaseProofs Tables TableProofs BitsModel ConfigModel SideModel SideSpec.
From Verif Require Import BitsWriteSafe BitsAbstract BitsWriteSim BitsReadSim BitsReadSafe.
Import ListNotations.
Local Open Scope Z_scope.

(** ** Sequencing of the simulations *)

(** A reading function that gives [v] back on a frame where [ops] are next. *)
Definition Reads {A} (get : rst -> A * rst) (ops : list wop) (v : A) : Prop :=
  forall F L r a, a_ok a -> RSim F L r a -> Fin F L (fold_left astep ops a) ->
  exists r', get r = (v, r') /\ RSim F L r' (fold_left astep ops a).

Lemma Reads_ret {A} (v : A) : Reads (fun r => (v, r)) [] v.
Proof. intros F L r a Ha HS HF. exists r. split; [reflexivity|exact HS]. Qed.

Lemma Reads_step {A} o ops (k : Z -> rst -> A * rst) v :
  op_ok o -> Forall op_ok ops -> Reads (k (op_value o)) ops v ->
  Reads (fun r => let '(x, r) := rstep r o in k x r) (o :: ops) v.
Proof.
  intros Ho Hops HR F L r a Ha HS HF. cbn [fold_left] in *.
  pose proof (astep_ok _ _ Ho Ha) as Ha1.
  destruct (rstep_sim F L r a o Ho Ha HS (Fin_steps _ _ _ _ Hops Ha1 HF)) as (r1 & E1 & S1).
  rewrite E1. apply HR; assumption.
Qed.

Lemma Reads_bits {A} x n ops (k : Z -> rst -> A * rst) v :
  op_ok (PutBits x n) -> Forall op_ok ops -> Reads (k x) ops v ->
  Reads (fun r => let '(x, r) := get_bits r n in k x r) (PutBits x n :: ops) v.
Proof. exact (Reads_step (PutBits x n) ops k v). Qed.
Lemma Reads_bit {A} x ops (k : Z -> rst -> A * rst) v :
  op_ok (PutBits x 1) -> Forall op_ok ops -> Reads (k x) ops v ->
  Reads (fun r => let '(x, r) := get_bit r in k x r) (PutBits x 1 :: ops) v.
Proof. exact (Reads_step (PutBits x 1) ops k v). Qed.
Lemma Reads_sym {A} m s ops (k : Z -> rst -> A * rst) v :
  op_ok (PutSym m s) -> Forall op_ok ops -> Reads (k s) ops v ->
  Reads (fun r => let '(x, r) := get_symbol r m in k x r) (PutSym m s :: ops) v.
Proof. exact (Reads_step (PutSym m s) ops k v). Qed.

Lemma Reads_bind {A B} (get : rst -> A * rst) (k : A -> rst -> B * rst) ops1 ops2 v1 v2 :
  Forall op_ok ops1 -> Forall op_ok ops2 ->
  Reads get ops1 v1 -> Reads (k v1) ops2 v2 ->
  Reads (fun r => let '(x, r) := get r in k x r) (ops1 ++ ops2) v2.
Proof.
  intros H1 H2 R1 R2 F L r a Ha HS HF. rewrite fold_left_app in *.
  pose proof (asteps_ok _ _ H1 Ha) as Ha1.
  destruct (R1 F L r a Ha HS (Fin_steps _ _ _ _ H2 Ha1 HF)) as (r1 & E1 & S1).
  rewrite E1. apply R2; assumption.
Qed.

Lemma Reads_ext {A} (g1 g2 : rst -> A * rst) ops v :
  (forall r, g1 r = g2 r) -> Reads g1 ops v -> Reads g2 ops v.
Proof.
  intros E H F L r a Ha HS HF. rewrite <- E. apply H; assumption.
Qed.

(** A reading function that is safe on any bytes. *)
Definition Safe {A} (get : rst -> A * rst) (post : A -> Prop) : Prop :=
  forall L r, RB L r -> let '(v, r') := get r in post v /\ RB L r'.

Lemma Safe_ret {A} (v : A) (post : A -> Prop) : post v -> Safe (fun r => (v, r)) post.
Proof. intros H L r HR. split; assumption. Qed.

Lemma Safe_bind {A B} (get : rst -> A * rst) (k : A -> rst -> B * rst) p1 p2 :
  Safe get p1 -> (forall x, p1 x -> Safe (k x) p2) ->
  Safe (fun r => let '(x, r) := get r in k x r) p2.
Proof.
  intros H1 H2 L r HR. specialize (H1 L r HR). destruct (get r) as [x r1].
  destruct H1 as (P1 & R1). apply (H2 x P1 L r1 R1).
Qed.

Lemma Safe_weaken {A} (get : rst -> A * rst) (p q : A -> Prop) :
  Safe get p -> (forall x, p x -> q x) -> Safe get q.
Proof.
  intros H Hpq L r HR. specialize (H L r HR). destruct (get r) as [x r'].
  destruct H. auto.
Qed.

Lemma Safe_bits n : 1 <= n <= 32 -> Safe (fun r => get_bits r n) (fun v => 0 <= v < 2 ^ n).
Proof.
  intros Hn L r HR. pose proof (get_bits_RB L r n Hn HR) as H.
  destruct (get_bits r n) as [v r']. destruct H as (? & ? & _). auto.
Qed.

Lemma Safe_bit : Safe get_bit (fun v => v = 0 \/ v = 1).
Proof.
  eapply Safe_weaken; [apply (Safe_bits 1); lia|]. cbv beta. change (2 ^ 1) with 2. lia.
Qed.

Lemma Safe_sym m : wf_model m ->
  Safe (fun r => get_symbol r m) (fun s => 0 <= s <= 16 /\ 0 < sym_range m s).
Proof.
  intros Hm L r HR. pose proof (get_symbol_RB L r m Hm HR) as H.
  destruct (get_symbol r m) as [s r']. destruct H as (? & ? & ? & _). auto.
Qed.

(** ** C15: bandwidth *)
Definition bw_ops (sr bw : Z) : list wop :=
  if 0 <? bw_nbits sr then [PutBits bw (bw_nbits sr)] else [].

Lemma sr_cases sr : 0 <= sr <= 6 ->
  sr = 0 \/ sr = 1 \/ sr = 2 \/ sr = 3 \/ sr = 4 \/ sr = 5 \/ sr = 6.
Proof. lia. Qed.
Ltac sr_cases sr H :=
  destruct (sr_cases sr H) as [->|[->|[->|[->|[->|[->| ->]]]]]].

Lemma put_bw_ops w sr bw : put_bw w sr bw = fold_left wstep (bw_ops sr bw) w.
Proof. unfold put_bw, bw_ops. destruct (0 <? bw_nbits sr); reflexivity. Qed.

Lemma bw_ops_ok sr bw : bw_ok sr bw -> Forall op_ok (bw_ops sr bw).
Proof.
  intros (Hs & H). unfold bw_ops.
  sr_cases sr Hs; cbn in H |- *; repeat constructor; cbn; lia.
Qed.

Lemma get_bw_reads sr bw : bw_ok sr bw ->
  Reads (fun r => get_bw r sr) (bw_ops sr bw) (0, bw).
Proof.
  intros H. pose proof H as (Hs & Hv). unfold get_bw, bw_ops.
  pose proof (bw_ops_ok sr bw H) as Hok. unfold bw_ops in Hok.
  destruct (0 <? bw_nbits sr) eqn:E.
  - replace (bw_nbits sr <=? 0) with false by lia.
    pose proof (Forall_inv Hok) as Ho.
    apply (Reads_step (PutBits bw (bw_nbits sr)) []
      (fun x r => if sr <? x then (-1, sr, r) else (0, x, r)) (0, bw) Ho (Forall_nil _)).
    cbn [op_value]. replace (sr <? bw) with false. { apply Reads_ret. }
    revert Hv. destruct (is_hr sr); lia.
  - replace (bw_nbits sr <=? 0) with true by lia.
    replace (sr <? sr) with false by lia.
    assert (sr = bw).
    { revert E Hv. sr_cases sr Hs; cbn; lia. }
    subst bw. apply Reads_ret.
Qed.

Lemma get_bw_safe sr : 0 <= sr <= 6 ->
  Safe (fun r => get_bw r sr) (fun '(ret, bw) => (ret = 0 \/ ret = -1) /\ bw_ok sr bw).
Proof.
  intros Hs. unfold get_bw. destruct (bw_nbits sr <=? 0) eqn:E.
  - replace (sr <? sr) with false by lia. apply Safe_ret.
    split; [auto|]. split; [exact Hs|]. destruct (is_hr sr); lia.
  - apply Safe_bind with (fun v => 0 <= v < 2 ^ bw_nbits sr).
    { apply Safe_bits. revert E. sr_cases sr Hs; cbn; lia. }
    intros x Hx. assert (Hr : is_hr sr = false).
    { unfold bw_nbits in E. destruct (is_hr sr); [discriminate|reflexivity]. }
    destruct (sr <? x) eqn:E2; apply Safe_ret; (split; [auto|]); (split; [exact Hs|]);
      rewrite Hr; lia.
Qed.

(** ** C16: long term postfilter *)
Definition ltpf_ops (d : ltpf_data) : list wop :=
  [PutBits (l_active d) 1; PutBits (l_pitch d) 9].
Lemma put_ltpf_ops w d : put_ltpf w d = fold_left wstep (ltpf_ops d) w.
Proof. reflexivity. Qed.

Lemma ltpf_ops_ok d : ltpf_ok d -> Forall op_ok (ltpf_ops d).
Proof. intros (H1 & H2). repeat constructor; cbn; lia. Qed.

Lemma get_ltpf_reads d : ltpf_ok d -> Reads get_ltpf (ltpf_ops d) d.
Proof.
  intros H. pose proof (ltpf_ops_ok d H) as Hok. unfold ltpf_ops in *.
  pose proof (Forall_inv Hok) as O1. pose proof (Forall_inv_tail Hok) as Hok1. pose proof (Forall_inv Hok1) as O2.
  apply (Reads_step (PutBits (l_active d) 1) _
    (fun a r => let '(p, r) := get_bits r 9 in (mkLtpf a p, r)) d O1 Hok1).
  apply (Reads_step (PutBits (l_pitch d) 9) []
    (fun p r => (mkLtpf (l_active d) p, r)) d O2 (Forall_nil _)).
  cbn [op_value]. destruct d. apply Reads_ret.
Qed.

Lemma get_ltpf_safe : Safe get_ltpf ltpf_ok.
Proof.
  unfold get_ltpf. eapply Safe_bind; [apply Safe_bit|]. intros a Ha.
  eapply Safe_bind; [apply (Safe_bits 9); lia|]. intros p Hp.
  apply Safe_ret. cbv beta in *. change (2 ^ 9) with 512 in Hp. split; assumption.
Qed.

(** ** C17, C18: spectral noise shaping *)

Definition sns_mux (d : sns_data) : Z :=
  if s_shape d =? 0 then (2 * (s_idx_b d + 1) + s_ls_b d) * 2390004 + s_idx_a d
  else if s_shape d =? 1 then (s_gain d mod 2) * 2390004 + s_idx_a d
  else if s_shape d =? 2 then s_idx_a d
  else 15158272 + 2 * s_idx_a d + s_gain d mod 2.

Definition sns_ops (d : sns_data) : list wop :=
  let msb := s_shape d / 2 in
  let sub := s_shape d mod 2 in
  [PutBits (s_lfcb d) 5; PutBits (s_hfcb d) 5; PutBits msb 1;
   PutBits (s_gain d / 2 ^ sub) (1 + msb); PutBits (s_ls_a d) 1;
   PutBits (sns_mux d) (25 - msb)].

Lemma shape_cases s : 0 <= s < 4 -> s = 0 \/ s = 1 \/ s = 2 \/ s = 3.
Proof. lia. Qed.

Lemma land_1 x : Z.land x 1 = x mod 2.
Proof. change 1 with (2 ^ 1 - 1). rewrite land_mask by lia. reflexivity. Qed.

(** Values of the expressions that depend on the shape only. *)
Lemma shape_consts :
  (sns_ngains 0 = 2 /\ sns_ngains 1 = 4 /\ sns_ngains 2 = 4 /\ sns_ngains 3 = 8) /\
  (sns_size_a 0 = 2390004 /\ sns_size_a 1 = 2390004 /\ sns_size_a 2 = 15158272 /\
   sns_size_a 3 = 774912).
Proof. repeat split. Qed.

Lemma put_sns_ops w d : 0 <= s_shape d < 4 -> put_sns w d = fold_left wstep (sns_ops d) w.
Proof.
  intros H. unfold put_sns, sns_ops, sns_mux, put_bit, shr. rewrite !land_1.
  change (2 ^ 1) with 2.
  set (a := 2390004). set (b := 15158272). clearbody a b.
  destruct (shape_cases _ H) as [E|[E|[E|E]]]; rewrite E; cbv zeta.
  - change (0 / 2) with 0. change (0 mod 2) with 0. cbn [Z.eqb fold_left wstep].
    change (1 + 0) with 1. change (25 - 0) with 25. reflexivity.
  - change (1 / 2) with 0. change (1 mod 2) with 1. cbn [Z.eqb Pos.eqb fold_left wstep].
    change (1 + 0) with 1. change (25 - 0) with 25. reflexivity.
  - change (2 / 2) with 1. change (2 mod 2) with 0. cbn [Z.eqb Pos.eqb fold_left wstep].
    change (1 + 1) with 2. change (25 - 1) with 24. reflexivity.
  - change (3 / 2) with 1. change (3 mod 2) with 1. cbn [Z.eqb Pos.eqb fold_left wstep].
    change (1 + 1) with 2. change (25 - 1) with 24. reflexivity.
Qed.

Lemma sns_ops_ok d : sns_ok d -> Forall op_ok (sns_ops d).
Proof.
  intros (H1 & H2 & H3 & H4 & H5 & H6 & H7). unfold sns_ops, sns_mux.
  destruct shape_consts as ((G0 & G1 & G2 & G3) & S0 & S1 & S2 & S3).
  pose proof (Z.mod_pos_bound (s_gain d) 2 ltac:(lia)) as Hg.
  assert (P5 : forall v, 0 <= v < 32 -> op_ok (PutBits v 5))
    by (intros v Hv; cbn [op_ok]; change (2 ^ 5) with 32; lia).
  assert (P1 : forall v, 0 <= v < 2 -> op_ok (PutBits v 1))
    by (intros v Hv; cbn [op_ok]; change (2 ^ 1) with 2; lia).
  assert (P2 : forall v, 0 <= v < 4 -> op_ok (PutBits v 2))
    by (intros v Hv; cbn [op_ok]; change (2 ^ 2) with 4; lia).
  assert (P25 : forall v, 0 <= v < 33554432 -> op_ok (PutBits v 25))
    by (intros v Hv; cbn [op_ok]; change (2 ^ 25) with 33554432; lia).
  assert (P24 : forall v, 0 <= v < 16777216 -> op_ok (PutBits v 24))
    by (intros v Hv; cbn [op_ok]; change (2 ^ 24) with 16777216; lia).
  assert (D2 : forall n, 0 <= s_gain d < 2 * n -> 0 <= s_gain d / 2 < n).
  { intros n Hn. split; [apply Z.div_pos; lia|apply Z.div_lt_upper_bound; lia]. }
  cbv zeta.
  destruct (shape_cases _ H3) as [E|[E|[E|E]]]; rewrite E in *.
  - change (0 / 2) with 0. change (0 mod 2) with 0. change (2 ^ 0) with 1.
    change (1 + 0) with 1. change (25 - 0) with 25. change (0 =? 0) with true. cbv iota.
    rewrite Z.div_1_r. specialize (H7 eq_refl). rewrite G0 in H4. rewrite S0 in H5.
    apply Forall_cons; [apply P5; lia|]. apply Forall_cons; [apply P5; lia|].
    apply Forall_cons; [apply P1; lia|]. apply Forall_cons; [apply P1; lia|].
    apply Forall_cons; [apply P1; lia|]. apply Forall_cons; [apply P25; lia|]. apply Forall_nil.
  - change (1 / 2) with 0. change (1 mod 2) with 1. change (2 ^ 1) with 2.
    change (1 + 0) with 1. change (25 - 0) with 25. change (1 =? 0) with false.
    change (1 =? 1) with true. cbv iota. rewrite G1 in H4. rewrite S1 in H5.
    apply Forall_cons; [apply P5; lia|]. apply Forall_cons; [apply P5; lia|].
    apply Forall_cons; [apply P1; lia|]. apply Forall_cons; [apply P1; apply D2; lia|].
    apply Forall_cons; [apply P1; lia|]. apply Forall_cons; [apply P25; lia|]. apply Forall_nil.
  - change (2 / 2) with 1. change (2 mod 2) with 0. change (2 ^ 0) with 1.
    change (1 + 1) with 2. change (25 - 1) with 24. change (2 =? 0) with false.
    change (2 =? 1) with false. change (2 =? 2) with true. cbv iota.
    rewrite Z.div_1_r. rewrite G2 in H4. rewrite S2 in H5.
    apply Forall_cons; [apply P5; lia|]. apply Forall_cons; [apply P5; lia|].
    apply Forall_cons; [apply P1; lia|]. apply Forall_cons; [apply P2; lia|].
    apply Forall_cons; [apply P1; lia|]. apply Forall_cons; [apply P24; lia|]. apply Forall_nil.
  - change (3 / 2) with 1. change (3 mod 2) with 1. change (2 ^ 1) with 2.
    change (1 + 1) with 2. change (25 - 1) with 24. change (3 =? 0) with false.
    change (3 =? 1) with false. change (3 =? 2) with false. cbv iota.
    rewrite G3 in H4. rewrite S3 in H5.
    apply Forall_cons; [apply P5; lia|]. apply Forall_cons; [apply P5; lia|].
    apply Forall_cons; [apply P1; lia|]. apply Forall_cons; [apply P2; apply D2; lia|].
    apply Forall_cons; [apply P1; lia|]. apply Forall_cons; [apply P24; lia|]. apply Forall_nil.
Qed.

Lemma get_sns_reads d : sns_ok d -> Reads (get_sns true) (sns_ops d) (Some (sns_canon d)).
Proof.
  intros H. pose proof (sns_ops_ok d H) as Hok. unfold sns_ops in *.
  destruct H as (H1 & H2 & H3 & H4 & H5 & H6 & H7). cbv zeta in *.
  pose proof (Forall_inv Hok) as O1. pose proof (Forall_inv_tail Hok) as K1. pose proof (Forall_inv K1) as O2. pose proof (Forall_inv_tail K1) as K2.
  pose proof (Forall_inv K2) as O3. pose proof (Forall_inv_tail K2) as K3. pose proof (Forall_inv K3) as O4. pose proof (Forall_inv_tail K3) as K4.
  pose proof (Forall_inv K4) as O5. pose proof (Forall_inv_tail K4) as K5. pose proof (Forall_inv K5) as O6. pose proof (Forall_inv_tail K5) as K6.
  unfold get_sns.
  refine (Reads_step (PutBits _ 5) _ (fun c1 r => _) _ O1 K1 _).
  refine (Reads_step (PutBits _ 5) _ (fun c2 r => _) _ O2 K2 _).
  refine (Reads_step (PutBits _ 1) _ (fun m r => _) _ O3 K3 _). cbn [op_value].
  refine (Reads_step (PutBits _ _) _ (fun g r => _) _ O4 K4 _).
  refine (Reads_step (PutBits _ 1) _ (fun l r => _) _ O5 K5 _).
  refine (Reads_step (PutBits _ _) _ (fun m r => _) _ O6 K6 _). cbn [op_value].
  clear - H1 H2 H3 H4 H5 H6 H7.
  destruct d as [lf hf sh g ia la ib lb]. unfold sns_mux, sns_canon.
  cbn [s_lfcb s_hfcb s_shape s_gain s_idx_a s_ls_a s_idx_b s_ls_b] in *.
  pose proof (Z.mod_pos_bound g 2 ltac:(lia)) as Hg. pose proof (Z.div_mod g 2 ltac:(lia)) as Dg.
  destruct (shape_cases _ H3) as [E|[E|[E|E]]]; subst sh; cbn in H4, H5.
  - specialize (H7 eq_refl). change (0 / 2) with 0. change (0 mod 2) with 0.
    cbn [Z.eqb]. change (2 ^ 0) with 1. rewrite Z.div_1_r.
    set (h := 2 * (ib + 1) + lb).
    replace (2390004 * 14 <=? h * 2390004 + ia) with false by lia.
    rewrite (Z.add_comm (h * 2390004)), Z.mod_add, Z.div_add by lia.
    rewrite (Z.mod_small ia), (Z.div_small ia) by lia.
    replace (2 <=? 0 + h) with true by lia.
    replace (0 + h - 2) with (lb + ib * 2) by lia.
    rewrite Z.mod_add, Z.div_add by lia. rewrite Z.mod_small, Z.div_small by lia.
    apply Reads_ret.
  - change (1 / 2) with 0. change (1 mod 2) with 1.
    cbn [Z.eqb Pos.eqb]. change (2 ^ 1) with 2.
    replace (2390004 * 14 <=? g mod 2 * 2390004 + ia) with false by lia.
    rewrite (Z.add_comm (g mod 2 * 2390004)), Z.mod_add, Z.div_add by lia.
    rewrite (Z.mod_small ia), (Z.div_small ia) by lia. rewrite Z.add_0_l.
    replace (2 <=? g mod 2) with false by lia.
    rewrite Z.mod_mod by lia. unfold shl. change (2 ^ 1) with 2.
    replace (g / 2 * 2 + g mod 2) with g by lia. apply Reads_ret.
  - change (2 / 2) with 1. change (2 mod 2) with 0.
    cbn [Z.eqb Pos.eqb]. change (2 ^ 0) with 1. rewrite Z.div_1_r.
    replace (15158272 + 1549824 <=? ia) with false by lia.
    replace (ia <? 15158272) with true by lia. apply Reads_ret.
  - change (3 / 2) with 1. change (3 mod 2) with 1.
    cbn [Z.eqb Pos.eqb]. change (2 ^ 1) with 2.
    replace (15158272 + 1549824 <=? 15158272 + 2 * ia + g mod 2) with false by lia.
    replace (15158272 + 2 * ia + g mod 2 <? 15158272) with false by lia.
    replace (15158272 + 2 * ia + g mod 2 - 15158272) with (g mod 2 + ia * 2) by lia.
    rewrite Z.mod_add, Z.div_add by lia. rewrite Z.mod_mod by lia.
    rewrite (Z.div_small (g mod 2)) by lia. unfold shl. change (2 ^ 1) with 2.
    replace (g / 2 * 2 + g mod 2) with g by lia. rewrite Z.add_0_l. apply Reads_ret.
Qed.

Lemma sns_ok_intro lf hf sh g ia la ib lb :
  0 <= lf < 32 -> 0 <= hf < 32 -> 0 <= sh < 4 -> 0 <= g < sns_ngains sh ->
  0 <= ia < sns_size_a sh -> la = 0 \/ la = 1 ->
  (if sh =? 0 then 0 <= ib < 6 /\ (lb = 0 \/ lb = 1) else ib = 0 /\ lb = 0) ->
  sns_ok (mkSns lf hf sh g ia la ib lb) /\
  sns_canon (mkSns lf hf sh g ia la ib lb) = mkSns lf hf sh g ia la ib lb.
Proof.
  intros H1 H2 H3 H4 H5 H6 H7. unfold sns_ok, sns_canon.
  cbn [s_lfcb s_hfcb s_shape s_gain s_idx_a s_ls_a s_idx_b s_ls_b].
  split.
  - do 6 (split; [assumption|]). intros ->. exact H7.
  - destruct (sh =? 0); [reflexivity|]. destruct H7 as (-> & ->). reflexivity.
Qed.

Lemma get_sns_safe lf : Safe (get_sns lf)
  (fun o => match o with Some d => sns_ok d /\ sns_canon d = d | None => True end).
Proof.
  destruct shape_consts as ((G0 & G1 & G2 & G3) & S0 & S1 & S2 & S3).
  unfold get_sns.
  eapply Safe_bind; [apply (Safe_bits 5); lia|]. intros c1 H1. cbv beta in H1.
  eapply Safe_bind; [apply (Safe_bits 5); lia|]. intros c2 H2. cbv beta in H2.
  change (2 ^ 5) with 32 in H1, H2.
  set (lfcb := if lf then c1 else c2). set (hfcb := if lf then c2 else c1).
  assert (HA : 0 <= lfcb < 32) by (unfold lfcb; destruct lf; assumption).
  assert (HB : 0 <= hfcb < 32) by (unfold hfcb; destruct lf; assumption).
  clearbody lfcb hfcb. clear H1 H2.
  eapply Safe_bind; [apply Safe_bit|]. intros msb Hm. cbv beta in Hm.
  eapply Safe_bind; [apply (Safe_bits (1 + msb)); lia|]. intros g Hg. cbv beta in Hg.
  eapply Safe_bind; [apply Safe_bit|]. intros ls Hl. cbv beta in Hl.
  eapply Safe_bind; [apply (Safe_bits (25 - msb)); lia|]. intros mux Hx. cbv beta in Hx.
  destruct Hm as [-> | ->]; cbn [Z.eqb].
  - change (2 ^ (1 + 0)) with 2 in Hg.
    destruct (2390004 * 14 <=? mux) eqn:E; [apply Safe_ret; exact I|].
    pose proof (Z.mod_pos_bound mux 2390004 ltac:(lia)) as Ha.
    assert (Hh : 0 <= mux / 2390004 < 14).
    { split; [apply Z.div_pos; lia|apply Z.div_lt_upper_bound; lia]. }
    set (h := mux / 2390004) in *. clearbody h.
    destruct (2 <=? h) eqn:E2; apply Safe_ret.
    + pose proof (Z.mod_pos_bound (h - 2) 2 ltac:(lia)) as Hb.
      assert (Hd : 0 <= (h - 2) / 2 < 6).
      { split; [apply Z.div_pos; lia|apply Z.div_lt_upper_bound; lia]. }
      apply sns_ok_intro; cbn [Z.eqb]; rewrite ?G0, ?S0; lia.
    + pose proof (Z.mod_pos_bound h 2 ltac:(lia)) as Hb. unfold shl. change (2 ^ 1) with 2.
      apply sns_ok_intro; cbn [Z.eqb]; rewrite ?G1, ?S1; lia.
  - change (2 ^ (1 + 1)) with 4 in Hg.
    destruct (15158272 + 1549824 <=? mux) eqn:E; [apply Safe_ret; exact I|].
    destruct (mux <? 15158272) eqn:E2; apply Safe_ret.
    + apply sns_ok_intro; cbn [Z.eqb]; rewrite ?G2, ?S2; lia.
    + set (m := mux - 15158272) in *.
      pose proof (Z.mod_pos_bound m 2 ltac:(lia)) as Hb.
      assert (Hd : 0 <= m / 2 < 774912).
      { split; [apply Z.div_pos; lia|apply Z.div_lt_upper_bound; lia]. }
      unfold shl. change (2 ^ 1) with 2.
      apply sns_ok_intro; cbn [Z.eqb]; rewrite ?G3, ?S3; lia.
Qed.

(** ** C20: temporal noise shaping *)
Fixpoint coeffs_ops (i : Z) (rc : list Z) : list wop :=
  match rc with
  | [] => []
  | c :: rc => PutSym (tns_coeff_model i) (8 + c) :: coeffs_ops (i + 1) rc
  end.
Definition filter_ops (lpcw : bool) (rc : list Z) : list wop :=
  match rc with
  | [] => [PutBits 0 1]
  | _ => PutBits 1 1 :: PutSym (tns_order_model lpcw) (zlen rc - 1) :: coeffs_ops 0 rc
  end.
Definition tns_ops (d : tns_data) : list wop :=
  flat_map (filter_ops (t_weighting d)) (t_filters d).


Lemma put_tns_coeffs_ops rc : forall w i,
  put_tns_coeffs w i rc = fold_left wstep (coeffs_ops i rc) w.
Proof.
  induction rc as [|c rc IH]; intros w i; cbn [put_tns_coeffs coeffs_ops fold_left]; [reflexivity|].
  rewrite IH. reflexivity.
Qed.

Lemma put_tns_filter_ops lpcw w rc :
  put_tns_filter lpcw w rc = fold_left wstep (filter_ops lpcw rc) w.
Proof.
  unfold put_tns_filter, filter_ops. destruct rc as [|c rc].
  - reflexivity.
  - assert (H : 0 < zlen (c :: rc)) by (rewrite zlen_cons; pose proof (zlen_nonneg rc); lia).
    replace (0 <? zlen (c :: rc)) with true by lia.
    replace (zlen (c :: rc) <=? 0) with false by lia.
    rewrite put_tns_coeffs_ops. reflexivity.
Qed.

Lemma put_tns_ops w d : put_tns w d = fold_left wstep (tns_ops d) w.
Proof.
  unfold put_tns, tns_ops. revert w. induction (t_filters d) as [|f fs IH]; intros w; [reflexivity|].
  cbn [fold_left flat_map]. rewrite fold_left_app, <- put_tns_filter_ops. apply IH.
Qed.

Lemma tns_order_model_In lpcw : In (tns_order_model lpcw) tns_order_models.
Proof. destruct lpcw; cbn; auto. Qed.

Lemma tns_coeff_model_In i : 0 <= i < 8 -> In (tns_coeff_model i) tns_coeffs_models.
Proof. intros H. apply znth_In. change (zlen tns_coeffs_models) with 8. exact H. Qed.

Lemma coeffs_ops_ok rc : forall i, 0 <= i -> i + zlen rc <= 8 ->
  Forall (fun c => -8 <= c <= 8) rc -> Forall op_ok (coeffs_ops i rc).
Proof.
  induction rc as [|c rc IH]; intros i Hi Hl H; cbn [coeffs_ops]; [constructor|].
  rewrite zlen_cons in Hl. pose proof (zlen_nonneg rc). inversion H; subst.
  pose proof (tns_coeff_model_In i ltac:(lia)) as HI.
  constructor; [|apply IH; auto; lia].
  cbn [op_ok]. split; [exact (tns_coeffs_models_wf _ HI)|].
  split; [lia|]. apply tns_coeffs_models_pos; [exact HI|lia].
Qed.

Lemma max_order_eq dt : tns_max_order dt = if dt <=? DT_5M then 4 else 8.
Proof. reflexivity. Qed.

Lemma max_order_8 dt : tns_max_order dt <= 8.
Proof. rewrite max_order_eq. destruct (dt <=? DT_5M); lia. Qed.

Lemma filter_ops_ok dt lpcw rc : filter_ok dt rc -> Forall op_ok (filter_ops lpcw rc).
Proof.
  intros (Hl & Hc). pose proof (max_order_8 dt). destruct rc as [|c rc].
  - repeat constructor; cbn; lia.
  - unfold filter_ops. pose proof (tns_order_model_In lpcw) as HI.
    pose proof (zlen_nonneg rc). pose proof (zlen_cons c rc).
    constructor; [cbn; lia|]. constructor; [|apply coeffs_ops_ok; auto; lia].
    cbn [op_ok]. split; [exact (tns_order_models_wf _ HI)|].
    split; [lia|]. apply tns_order_models_pos; [exact HI|lia].
Qed.

Lemma flat_map_ok {A} (f : A -> list wop) l :
  Forall (fun x => Forall op_ok (f x)) l -> Forall op_ok (flat_map f l).
Proof.
  induction 1; cbn [flat_map]; [constructor|]. apply Forall_app. auto.
Qed.

Lemma tns_ops_ok dt bw nbytes d : tns_ok dt bw nbytes d -> Forall op_ok (tns_ops d).
Proof.
  intros (_ & _ & H). apply flat_map_ok. eapply Forall_impl; [|exact H].
  intros rc. apply filter_ops_ok.
Qed.

Lemma get_tns_coeffs_reads rc : forall i, 0 <= i -> i + zlen rc <= 8 ->
  Forall (fun c => -8 <= c <= 8) rc ->
  Reads (fun r => get_tns_coeffs (length rc) r i) (coeffs_ops i rc) rc.
Proof.
  induction rc as [|c rc IH]; intros i Hi Hl H; cbn [length get_tns_coeffs coeffs_ops].
  - apply Reads_ret.
  - pose proof (coeffs_ops_ok (c :: rc) i Hi Hl H) as Hok. cbn [coeffs_ops] in Hok.
    pose proof (Forall_inv Hok) as O1. pose proof (Forall_inv_tail Hok) as K1.
    rewrite zlen_cons in Hl. pose proof (zlen_nonneg rc). inversion H; subst.
    apply Reads_sym; [exact O1|exact K1|].
    rewrite <- (app_nil_r (coeffs_ops (i + 1) rc)).
    apply (Reads_bind (fun r => get_tns_coeffs (length rc) r (i + 1))
      (fun x r => (8 + c - 8 :: x, r)) _ [] rc); auto.
    + apply IH; auto; lia.
    + replace (8 + c - 8) with c by lia. apply Reads_ret.
Qed.

Lemma get_tns_filters_reads dt lpcw fs : Forall (filter_ok dt) fs ->
  Reads (get_tns_filters (length fs) dt lpcw) (flat_map (filter_ops lpcw) fs) (Some fs).
Proof.
  induction 1 as [|rc fs Hrc Hfs IH]; cbn [length get_tns_filters flat_map].
  - apply Reads_ret.
  - assert (Hok : Forall op_ok (flat_map (filter_ops lpcw) fs)).
    { apply flat_map_ok. eapply Forall_impl; [|exact Hfs]. intros x. apply filter_ops_ok. }
    pose proof (filter_ops_ok dt lpcw rc Hrc) as Hok1.
    destruct rc as [|c rc].
    + cbn [filter_ops app].
      apply Reads_bit; [cbn; lia|exact Hok|]. cbn [Z.eqb].
      rewrite <- (app_nil_r (flat_map _ fs)).
      apply (Reads_bind (get_tns_filters (length fs) dt lpcw)
        (fun x r => (option_map (cons []) x, r)) _ [] (Some fs)); auto.
      apply Reads_ret.
    + assert (Ef : filter_ops lpcw (c :: rc) = PutBits 1 1 ::
        PutSym (tns_order_model lpcw) (zlen (c :: rc) - 1) :: coeffs_ops 0 (c :: rc)) by reflexivity.
      rewrite Ef in Hok1 |- *. clear Ef. set (f := c :: rc) in *. clearbody f. cbn [app].
      pose proof (Forall_inv Hok1) as O1. pose proof (Forall_inv_tail Hok1) as K1. pose proof (Forall_inv K1) as O2. pose proof (Forall_inv_tail K1) as K2.
      assert (K2' : Forall op_ok (coeffs_ops 0 f ++ flat_map (filter_ops lpcw) fs))
        by (apply Forall_app; auto).
      apply Reads_bit; [exact O1|exact (Forall_cons _ O2 K2')|]. cbn [Z.eqb].
      apply Reads_sym; [exact O2|exact K2'|].
      destruct Hrc as (Hl & Hc).
      replace ((dt <=? DT_5M) && (4 <? 1 + (zlen f - 1))) with false.
      2:{ rewrite max_order_eq in Hl. destruct (dt <=? DT_5M); lia. }
      replace (Z.to_nat (1 + (zlen f - 1))) with (length f) by (unfold zlen; lia).
      apply (Reads_bind (fun r => get_tns_coeffs (length f) r 0)
        (fun rc r => let '(fs, r) := get_tns_filters (length fs) dt lpcw r in
           (option_map (cons rc) fs, r)) _ _ f); auto.
      { apply get_tns_coeffs_reads; auto; [lia|]. pose proof (max_order_8 dt). lia. }
      rewrite <- (app_nil_r (flat_map _ fs)).
      apply (Reads_bind (get_tns_filters (length fs) dt lpcw)
        (fun x r => (option_map (cons f) x, r)) _ [] (Some fs)); auto.
      apply Reads_ret.
Qed.

Lemma get_tns_reads dt bw nbytes d : tns_ok dt bw nbytes d ->
  Reads (fun r => get_tns r dt bw nbytes) (tns_ops d) (Some d).
Proof.
  intros H. pose proof (tns_ops_ok _ _ _ _ H) as Hok. destruct H as (E & Hn & Hf).
  change (t_weighting d = resolve_lpc_weighting dt nbytes) in E.
  change (length (t_filters d) = tns_nfilters dt bw) in Hn.
  unfold get_tns, tns_ops in *. rewrite <- E, <- Hn.
  rewrite <- (app_nil_r (flat_map _ (t_filters d))).
  apply (Reads_bind (get_tns_filters (length (t_filters d)) dt (t_weighting d))
    (fun fs r => (option_map (mkTns (t_weighting d)) fs, r)) _ [] (Some (t_filters d))); auto.
  - apply get_tns_filters_reads. exact Hf.
  - destruct d. apply Reads_ret.
Qed.

Lemma get_tns_coeffs_safe n : forall i, 0 <= i -> i + Z.of_nat n <= 8 ->
  Safe (fun r => get_tns_coeffs n r i)
    (fun rc => zlen rc = Z.of_nat n /\ Forall (fun c => -8 <= c <= 8) rc).
Proof.
  induction n as [|n IH]; intros i Hi Hn; cbn [get_tns_coeffs].
  - apply Safe_ret. split; [reflexivity|constructor].
  - eapply Safe_bind.
    { apply Safe_sym. apply tns_coeffs_models_wf, tns_coeff_model_In. lia. }
    intros s (Hs & _). eapply Safe_bind; [apply IH; lia|].
    intros rc (Hl & Hc). apply Safe_ret. rewrite zlen_cons. split; [lia|].
    constructor; [lia|exact Hc].
Qed.

Lemma get_tns_filters_safe nf dt lpcw :
  Safe (get_tns_filters nf dt lpcw)
    (fun o => match o with
              | Some fs => length fs = nf /\ Forall (filter_ok dt) fs
              | None => True end).
Proof.
  induction nf as [|nf IH]; cbn [get_tns_filters].
  - apply Safe_ret. split; [reflexivity|constructor].
  - eapply Safe_bind; [apply Safe_bit|]. intros b Hb. cbv beta in Hb.
    destruct (b =? 0) eqn:E.
    + eapply Safe_bind; [apply IH|]. intros [fs|] Hfs; apply Safe_ret; cbn; [|exact I].
      destruct Hfs as (Hl & Hf). split; [lia|]. constructor; [|exact Hf].
      split; [|constructor]. rewrite max_order_eq. change (zlen (@nil Z)) with 0.
      destruct (dt <=? DT_5M); lia.
    + eapply Safe_bind.
      { apply Safe_sym. apply tns_order_models_wf, (tns_order_model_In lpcw). }
      intros s (Hs & Hr).
      assert (Hs7 : s <= 7).
      { destruct (Z_le_gt_dec s 7) as [|Hgt]; [assumption|].
        rewrite (tns_order_models_zero _ s (tns_order_model_In lpcw)) in Hr by lia. lia. }
      destruct ((dt <=? DT_5M) && (4 <? b + s)) eqn:E2; [apply Safe_ret; exact I|].
      eapply Safe_bind; [apply get_tns_coeffs_safe; lia|]. intros rc (Hl & Hc).
      eapply Safe_bind; [apply IH|]. intros [fs|] Hfs; apply Safe_ret; cbn; [|exact I].
      destruct Hfs as (Hl2 & Hf). split; [lia|]. constructor; [|exact Hf].
      split; [|exact Hc]. rewrite max_order_eq. destruct (dt <=? DT_5M); lia.
Qed.

Lemma get_tns_safe dt bw nbytes :
  Safe (fun r => get_tns r dt bw nbytes)
    (fun o => match o with Some d => tns_ok dt bw nbytes d | None => True end).
Proof.
  unfold get_tns. eapply Safe_bind; [apply get_tns_filters_safe|].
  intros [fs|] H; apply Safe_ret; cbn; [|exact I]. destruct H. split; [reflexivity|]. auto.
Qed.

(** ** Spectrum side data *)
Definition side_ops (dt sr : Z) (d : spec_side) : list wop :=
  [PutBits (Z.max (q_nq d / 2) 1 - 1) (nbits_nq dt sr); PutBits (b2z (q_lsb d)) 1;
   PutBits (q_gidx d) 8].

Lemma put_side_ops w dt sr d : put_spec_side w dt sr d = fold_left wstep (side_ops dt sr d) w.
Proof. reflexivity. Qed.

Lemma dt_cases dt : 0 <= dt <= 3 -> dt = 0 \/ dt = 1 \/ dt = 2 \/ dt = 3.
Proof. lia. Qed.

(** The field can code all the counts. *)
Lemma nbits_nq_ok dt sr : 0 <= dt <= 3 -> 0 <= sr <= 6 ->
  4 <= nbits_nq dt sr <= 9 /\ 2 <= c_ne dt sr <= 2 * 2 ^ nbits_nq dt sr /\ c_ne dt sr mod 2 = 0.
Proof.
  intros Hd Hs. destruct (dt_cases dt Hd) as [->|[->|[->| ->]]]; sr_cases sr Hs; vm_compute;
    intuition congruence.
Qed.

Lemma side_ops_ok dt sr d : side_ok dt sr d -> Forall op_ok (side_ops dt sr d).
Proof.
  intros (Hd & Hs & Hn & He & Hg). pose proof (nbits_nq_ok dt sr Hd Hs) as (H1 & H2 & _).
  unfold side_ops. pose proof (Z.div_mod (q_nq d) 2 ltac:(lia)) as Dn.
  repeat (apply Forall_cons || apply Forall_nil); cbn [op_ok].
  - split; [lia|]. lia.
  - split; [lia|]. change (2 ^ 1) with 2. destruct (q_lsb d); cbn; lia.
  - change (2 ^ 8) with 256. lia.
Qed.

Lemma get_side_reads dt sr d : side_ok dt sr d ->
  Reads (fun r => get_spec_side r dt sr) (side_ops dt sr d) (0, d).
Proof.
  intros H. pose proof (side_ops_ok _ _ _ H) as Hok. unfold side_ops, get_spec_side in *.
  destruct H as (Hd & Hs & Hn & He & Hg).
  pose proof (Forall_inv Hok) as O1. pose proof (Forall_inv_tail Hok) as K1. pose proof (Forall_inv K1) as O2. pose proof (Forall_inv_tail K1) as K2.
  pose proof (Forall_inv K2) as O3. pose proof (Forall_inv_tail K2) as K3.
  refine (Reads_step (PutBits _ _) _ (fun c1 r => _) _ O1 K1 _).
  refine (Reads_step (PutBits _ 1) _ (fun c2 r => _) _ O2 K2 _).
  refine (Reads_step (PutBits _ 8) _ (fun m r => _) _ O3 K3 _). cbn [op_value].
  pose proof (Z.div_mod (q_nq d) 2 ltac:(lia)) as Dn.
  unfold shl. change (2 ^ 1) with 2.
  replace ((Z.max (q_nq d / 2) 1 - 1 + 1) * 2) with (q_nq d) by lia.
  replace (c_ne dt sr <? q_nq d) with false by lia.
  destruct d as [nq l g]. cbn [q_nq q_lsb q_gidx].
  replace (negb (b2z l =? 0)) with l by (destruct l; reflexivity). apply Reads_ret.
Qed.

Lemma get_side_safe dt sr : 0 <= dt <= 3 -> 0 <= sr <= 6 ->
  Safe (fun r => get_spec_side r dt sr)
    (fun '(ret, d) => (ret = 0 \/ ret = -1) /\ side_ok dt sr d).
Proof.
  intros Hd Hs. pose proof (nbits_nq_ok dt sr Hd Hs) as (H1 & H2 & H3). unfold get_spec_side.
  eapply Safe_bind; [apply (Safe_bits (nbits_nq dt sr)); lia|]. intros n Hn. cbv beta in Hn.
  eapply Safe_bind; [apply Safe_bit|]. intros l Hl.
  eapply Safe_bind; [apply (Safe_bits 8); lia|]. intros g Hg. cbv beta in Hg.
  change (2 ^ 8) with 256 in Hg. unfold shl. change (2 ^ 1) with 2.
  destruct (c_ne dt sr <? (n + 1) * 2) eqn:E; apply Safe_ret; (split; [auto|]);
    unfold side_ok; cbn [q_nq q_lsb q_gidx]; (split; [lia|]); (split; [lia|]).
  - split; [lia|]. split; [exact H3|lia].
  - split; [lia|]. split; [|lia]. apply Z.mod_mul. lia.
Qed.
