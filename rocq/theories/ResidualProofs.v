(** * Residual bits: encoder and decoder in step *)
From Coq Require Import ZArith List Bool Lia ZifyBool.
From Verif Require Import Base BaseProofs BitsModel FloatModel FloatProofs ResidualModel.
From Verif Require Import BitsWriteSafe BitsAbstract BitsReadSim SideProofs SpecFrame.
Import ListNotations.
Local Open Scope Z_scope.

(** A coefficient seen from both sides: sign, original magnitude, magnitude in the
    encoder and in the decoder, count of refinement bits. *)
Record cell := mkC { c_s : Z; c_O : Z; c_E : Z; c_D : Z; c_m : Z }.
Definition c_orig (c : cell) : Z := c_s c * c_O c.
Definition c_enc (c : cell) : Z := c_s c * c_E c.
Definition c_dec (c : cell) : Z := c_s c * c_D c.
Definition signed (c : cell) : Prop := c_s c = 1 \/ c_s c = -1.

Section Passes.
Variable fl : Z -> Z.
Hypothesis fl_opp : forall x, fl (- x) = - fl x.
Variable lim : Z.
Hypothesis lim_pos : 0 < lim.

Definition active (c : cell) : bool := lim <=? c_E c.
Definition up (c : cell) : bool := c_E c mod one <? lim.
Definition bit_c (c : cell) : Z := b2z (xorb (up c) (c_s c <? 0)).

Definition step_c (off off1 off2 : Z) (c : cell) : cell :=
  mkC (c_s c) (c_O c) (fl (if up c then c_E c - off else c_E c + off))
    (fl (if up c then c_D c + off1 else c_D c - off2)) (c_m c + 1).

Fixpoint pass (off off1 off2 n : Z) (cs : list cell) : list cell * Z * list Z :=
  match cs with
  | [] => ([], n, [])
  | c :: cs' =>
      if n <=? 0 then (cs, n, [])
      else if active c then
        let '(ds, n, bs) := pass off off1 off2 (n - 1) cs' in
        (step_c off off1 off2 c :: ds, n, bit_c c :: bs)
      else
        let '(ds, n, bs) := pass off off1 off2 n cs' in (c :: ds, n, bs)
  end.

(** Both sides of a coefficient agree. *)
Definition agree (c : cell) : Prop :=
  signed c /\ 0 <= c_E c /\ 0 <= c_D c /\ (c_D c = 0 <-> c_E c < lim).

Lemma bit_c_ok c : is_bit (bit_c c).
Proof. unfold bit_c, is_bit. destruct (xorb _ _); cbn; auto. Qed.

Lemma pass_bits_ok off off1 off2 cs : forall n, Forall is_bit (snd (pass off off1 off2 n cs)).
Proof.
  induction cs as [|c cs IH]; intros n; cbn [pass]; [constructor|].
  destruct (n <=? 0); [constructor|]. destruct (active c).
  - specialize (IH (n - 1)). destruct (pass off off1 off2 (n - 1) cs) as [[ds n'] bs]. cbn [snd] in *.
    constructor; [apply bit_c_ok|exact IH].
  - specialize (IH n). destruct (pass off off1 off2 n cs) as [[ds n'] bs]. exact IH.
Qed.

Lemma enc_pass off off1 off2 cs : Forall agree cs -> forall n w,
  put_res_pass fl lim off n (map c_enc cs) w =
  let '(ds, n', bs) := pass off off1 off2 n cs in
  (map c_enc ds, n', fold_left wstep (map bit_op bs) w).
Proof.
  induction cs as [|c cs IH]; intros Hc n w; [reflexivity|].
  pose proof (Forall_inv Hc) as (Hs & HE & HD & Ha). apply Forall_inv_tail in Hc.
  cbn [map put_res_pass pass]. destruct (n <=? 0); [reflexivity|].
  assert (Habs : Z.abs (c_enc c) = c_E c) by (unfold c_enc; destruct Hs as [-> | ->]; lia).
  rewrite Habs. unfold active. destruct (lim <=? c_E c) eqn:El.
  - replace (c_E c <? lim) with false by lia.
    assert (Hneg : (c_enc c <? 0) = (c_s c <? 0)) by (unfold c_enc; destruct Hs as [-> | ->]; lia).
    rewrite Hneg. fold (up c). rewrite (IH Hc (n - 1)).
    destruct (pass off off1 off2 (n - 1) cs) as [[ds n'] bs].
    cbn [map fold_left wstep bit_op]. f_equal. f_equal. f_equal.
    unfold c_enc, step_c. cbn [c_s c_E].
    destruct Hs as [-> | ->]; destruct (up c); cbn [Z.ltb Z.compare xorb].
    + rewrite !Z.mul_1_l. reflexivity.
    + rewrite !Z.mul_1_l. reflexivity.
    + replace (-1 * c_E c + off) with (- (c_E c - off)) by lia. rewrite fl_opp. lia.
    + replace (-1 * c_E c - off) with (- (c_E c + off)) by lia. rewrite fl_opp. lia.
  - replace (c_E c <? lim) with true by lia. rewrite (IH Hc n).
    destruct (pass off off1 off2 n cs) as [[ds n'] bs]. reflexivity.
Qed.

Lemma dec_pass off off1 off2 cs : Forall agree cs -> forall n,
  let '(ds, n', bs) := pass off off1 off2 n cs in
  Reads (fun r => get_res_pass fl off1 off2 n (map c_dec cs) r) (map bit_op bs) (map c_dec ds, n').
Proof.
  induction cs as [|c cs IH]; intros Hc n.
  - apply Reads_ret.
  - pose proof (Forall_inv Hc) as (Hs & HE & HD & Ha). apply Forall_inv_tail in Hc.
    cbn [map get_res_pass pass]. destruct (n <=? 0); [apply Reads_ret|].
    unfold active. destruct (lim <=? c_E c) eqn:El.
    + assert (HD2 : 0 < c_D c) by lia.
      pose proof (pass_bits_ok off off1 off2 cs (n - 1)) as Hb.
      specialize (IH Hc (n - 1)). destruct (pass off off1 off2 (n - 1) cs) as [[ds n'] bs].
      cbn [map]. replace (c_dec c =? 0) with false by (unfold c_dec; destruct Hs as [-> | ->]; lia).
      unfold bit_op at 1. apply Reads_bit; [apply bit_op_ok, bit_c_ok|apply bit_ops_ok2; exact Hb|].
      rewrite <- (app_nil_r (map bit_op bs)).
      eapply Reads_bind2; [apply bit_ops_ok2; exact Hb|constructor|exact IH|]. cbv beta.
      match goal with |- Reads (fun r => (?x :: _, _, r)) _ (?y :: _, _) => replace x with y end.
      { apply Reads_ret. }
      unfold c_dec, step_c, bit_c. cbn [c_s c_D].
      destruct Hs as [-> | ->]; destruct (up c); cbn [Z.ltb Z.compare xorb b2z Z.eqb].
      * rewrite !Z.mul_1_l. replace (0 <? c_D c) with true by lia. reflexivity.
      * rewrite !Z.mul_1_l. replace (c_D c <? 0) with false by lia. reflexivity.
      * replace (-1 * c_D c <? 0) with true by lia.
        replace (-1 * c_D c - off1) with (- (c_D c + off1)) by lia. rewrite fl_opp. lia.
      * replace (0 <? -1 * c_D c) with false by lia.
        replace (-1 * c_D c + off2) with (- (c_D c - off2)) by lia. rewrite fl_opp. lia.
    + pose proof (pass_bits_ok off off1 off2 cs n) as Hb.
      specialize (IH Hc n). destruct (pass off off1 off2 n cs) as [[ds n'] bs].
      cbn [map snd] in *. replace (c_dec c =? 0) with true by (unfold c_dec; nia).
      rewrite <- (app_nil_r (map bit_op bs)).
      eapply Reads_bind2; [apply bit_ops_ok2; exact Hb|constructor|exact IH|].
      apply Reads_ret.
Qed.

(** The passes: the offsets are multiplied by [lim], respectively halved. *)
Fixpoint passes (it : nat) (off off1 off2 n : Z) (cs : list cell) : list cell * list Z :=
  match it with
  | O => (cs, [])
  | S it =>
      if n <=? 0 then (cs, [])
      else
        let '(ds, n, bs) := pass off off1 off2 n cs in
        let '(ds, bs') := passes it (off * lim / one) (off1 / 2) (off2 / 2) n ds in
        (ds, bs ++ bs')
  end.

(** What is kept along the passes: [P it off off1 off2 c] before a pass when [it]
    remain. *)
Variable P : nat -> Z -> Z -> Z -> cell -> Prop.
Hypothesis P_agree : forall it o o1 o2 c, P (S it) o o1 o2 c -> agree c.
Hypothesis P_step : forall it o o1 o2 c, P (S it) o o1 o2 c ->
  P it (o * lim / one) (o1 / 2) (o2 / 2) (if active c then step_c o o1 o2 c else c).

Lemma passes_bits_ok it : forall off off1 off2 n cs,
  Forall is_bit (snd (passes it off off1 off2 n cs)).
Proof.
  induction it as [|it IH]; intros off off1 off2 n cs; cbn [passes]; [constructor|].
  destruct (n <=? 0); [constructor|].
  pose proof (pass_bits_ok off off1 off2 cs n) as Hb.
  destruct (pass off off1 off2 n cs) as [[ds n'] bs].
  specialize (IH (off * lim / one) (off1 / 2) (off2 / 2) n' ds).
  destruct (passes it _ _ _ n' ds) as [es bs']. cbn [snd] in *.
  apply Forall_app. auto.
Qed.

(** A pass that leaves bits has gone through all the coefficients. *)
Lemma pass_full off off1 off2 cs : forall n,
  let '(ds, n', bs) := pass off off1 off2 n cs in
  0 < n' -> ds = map (fun c => if active c then step_c off off1 off2 c else c) cs.
Proof.
  induction cs as [|c cs IH]; intros n; cbn [pass]; [reflexivity|].
  destruct (n <=? 0) eqn:E; [lia|]. destruct (active c) eqn:Ea.
  - specialize (IH (n - 1)). destruct (pass off off1 off2 (n - 1) cs) as [[ds n'] bs].
    intros H. cbn [map]. rewrite Ea, (IH H). reflexivity.
  - specialize (IH n). destruct (pass off off1 off2 n cs) as [[ds n'] bs].
    intros H. cbn [map]. rewrite Ea, (IH H). reflexivity.
Qed.

Lemma pass_P it off off1 off2 cs n : Forall (P (S it) off off1 off2) cs ->
  let '(ds, n', bs) := pass off off1 off2 n cs in
  0 < n' -> Forall (P it (off * lim / one) (off1 / 2) (off2 / 2)) ds.
Proof.
  intros H. pose proof (pass_full off off1 off2 cs n) as Hf.
  destruct (pass off off1 off2 n cs) as [[ds n'] bs]. intros Hn. rewrite (Hf Hn).
  clear - H P_step. induction H; cbn [map]; constructor; auto.
Qed.

Lemma P_agree_all it o o1 o2 cs : Forall (P (S it) o o1 o2) cs -> Forall agree cs.
Proof. intros H. eapply Forall_impl; [|exact H]. intros c. apply P_agree. Qed.

Lemma enc_passes it : forall off off1 off2 n cs w, Forall (P it off off1 off2) cs ->
  put_res_iter it fl lim off n (map c_enc cs) w =
  fold_left wstep (map bit_op (snd (passes it off off1 off2 n cs))) w.
Proof.
  induction it as [|it IH]; intros off off1 off2 n cs w H; [reflexivity|].
  cbn [put_res_iter passes]. destruct (n <=? 0) eqn:E; [reflexivity|].
  rewrite (enc_pass off off1 off2 cs (P_agree_all _ _ _ _ _ H)).
  pose proof (pass_P it off off1 off2 cs n H) as HP.
  destruct (pass off off1 off2 n cs) as [[ds n'] bs].
  destruct (Z_lt_le_dec 0 n') as [Hn|Hn].
  - rewrite (IH _ (off1 / 2) (off2 / 2) n' ds _ (HP Hn)).
    destruct (passes it _ _ _ n' ds) as [es bs']. cbn [snd].
    rewrite map_app, fold_left_app. reflexivity.
  - destruct it as [|it]; cbn [put_res_iter passes];
      [cbn [snd]; rewrite app_nil_r; reflexivity|].
    replace (n' <=? 0) with true by lia. cbn [snd]. rewrite app_nil_r. reflexivity.
Qed.

Lemma dec_passes it : forall off off1 off2 n cs, Forall (P it off off1 off2) cs ->
  Reads (fun r => get_res_iter it fl off1 off2 n (map c_dec cs) r)
    (map bit_op (snd (passes it off off1 off2 n cs)))
    (map c_dec (fst (passes it off off1 off2 n cs))).
Proof.
  induction it as [|it IH]; intros off off1 off2 n cs H; [apply Reads_ret|].
  cbn [get_res_iter passes]. destruct (n <=? 0) eqn:E; [apply Reads_ret|].
  pose proof (dec_pass off off1 off2 cs (P_agree_all _ _ _ _ _ H) n) as R1.
  pose proof (pass_P it off off1 off2 cs n H) as HP.
  pose proof (pass_bits_ok off off1 off2 cs n) as Hb.
  destruct (pass off off1 off2 n cs) as [[ds n'] bs]. cbn [snd] in Hb.
  pose proof (passes_bits_ok it (off * lim / one) (off1 / 2) (off2 / 2) n' ds) as Hb2.
  destruct (Z_lt_le_dec 0 n') as [Hn|Hn].
  - specialize (IH _ (off1 / 2) (off2 / 2) n' ds (HP Hn)).
    destruct (passes it _ _ _ n' ds) as [es bs']. cbn [fst snd] in *. rewrite map_app.
    eapply Reads_bind2; [apply bit_ops_ok2; exact Hb|apply bit_ops_ok2; exact Hb2|exact R1|exact IH].
  - assert (Ep : passes it (off * lim / one) (off1 / 2) (off2 / 2) n' ds = (ds, [])).
    { destruct it; cbn [passes]; [reflexivity|]. replace (n' <=? 0) with true by lia. reflexivity. }
    rewrite Ep. cbn [fst snd]. rewrite map_app.
    eapply Reads_bind2; [apply bit_ops_ok2; exact Hb|constructor|exact R1|]. cbv beta.
    eapply Reads_ext; [|apply Reads_ret]. intros r. cbv beta.
    destruct it; cbn [get_res_iter]; [reflexivity|]. replace (n' <=? 0) with true by lia. reflexivity.
Qed.

(** Final facts on each coefficient. *)
Variable Q : cell -> Prop.
Hypothesis P_final : forall it o o1 o2 c, P it o o1 o2 c -> Q c.

Lemma pass_Q it off off1 off2 cs : Forall (P (S it) off off1 off2) cs -> forall n,
  Forall Q (fst (fst (pass off off1 off2 n cs))).
Proof.
  intros H. induction H as [|c cs Hc H IH]; intros n; cbn [pass]; [constructor|].
  destruct (n <=? 0).
  { cbn [fst]. constructor; [exact (P_final _ _ _ _ _ Hc)|].
    eapply Forall_impl; [|exact H]. intros d. apply P_final. }
  pose proof (P_step _ _ _ _ _ Hc) as Hs. destruct (active c).
  - specialize (IH (n - 1)). destruct (pass off off1 off2 (n - 1) cs) as [[ds n'] bs]. cbn [fst] in *.
    constructor; [exact (P_final _ _ _ _ _ Hs)|exact IH].
  - specialize (IH n). destruct (pass off off1 off2 n cs) as [[ds n'] bs]. cbn [fst] in *.
    constructor; [exact (P_final _ _ _ _ _ Hc)|exact IH].
Qed.

Lemma passes_Q it : forall off off1 off2 n cs, Forall (P it off off1 off2) cs ->
  Forall Q (fst (passes it off off1 off2 n cs)).
Proof.
  induction it as [|it IH]; intros off off1 off2 n cs H; cbn [passes].
  { cbn [fst]. eapply Forall_impl; [|exact H]. intros d. apply P_final. }
  destruct (n <=? 0).
  { cbn [fst]. eapply Forall_impl; [|exact H]. intros d. apply P_final. }
  pose proof (pass_Q it off off1 off2 cs H n) as HQ.
  pose proof (pass_P it off off1 off2 cs n H) as HP.
  destruct (pass off off1 off2 n cs) as [[ds n'] bs]. cbn [fst] in HQ.
  destruct (Z_lt_le_dec 0 n') as [Hn|Hn].
  - specialize (IH _ (off1 / 2) (off2 / 2) n' ds (HP Hn)).
    destruct (passes it _ _ _ n' ds) as [es bs']. exact IH.
  - assert (Ep : passes it (off * lim / one) (off1 / 2) (off2 / 2) n' ds = (ds, [])).
    { destruct it; cbn [passes]; [reflexivity|]. replace (n' <=? 0) with true by lia. reflexivity. }
    rewrite Ep. exact HQ.
Qed.

(** Signs and originals do not change. *)
Lemma pass_orig off off1 off2 cs : forall n,
  map (fun c => (c_s c, c_O c)) (fst (fst (pass off off1 off2 n cs))) = map (fun c => (c_s c, c_O c)) cs.
Proof.
  induction cs as [|c cs IH]; intros n; cbn [pass]; [reflexivity|].
  destruct (n <=? 0); [reflexivity|]. destruct (active c).
  - specialize (IH (n - 1)). destruct (pass off off1 off2 (n - 1) cs) as [[ds n'] bs].
    cbn [fst map step_c c_s c_O] in *. f_equal. exact IH.
  - specialize (IH n). destruct (pass off off1 off2 n cs) as [[ds n'] bs].
    cbn [fst map] in *. f_equal. exact IH.
Qed.
Lemma passes_orig it : forall off off1 off2 n cs,
  map (fun c => (c_s c, c_O c)) (fst (passes it off off1 off2 n cs)) = map (fun c => (c_s c, c_O c)) cs.
Proof.
  induction it as [|it IH]; intros off off1 off2 n cs; cbn [passes]; [reflexivity|].
  destruct (n <=? 0); [reflexivity|].
  pose proof (pass_orig off off1 off2 cs n) as H1.
  destruct (pass off off1 off2 n cs) as [[ds n'] bs]. cbn [fst] in H1.
  specialize (IH (off * lim / one) (off1 / 2) (off2 / 2) n' ds).
  destruct (passes it _ _ _ n' ds) as [es bs']. cbn [fst] in *. congruence.
Qed.

(** Counts: the active coefficients get bits in turn. *)
Definition nonzero (c : cell) : bool := negb (c_D c =? 0).
Definition counts (cs : list cell) : list Z := map c_m (filter nonzero cs).
Hypothesis P_nonzero : forall it o o1 o2 c, P (S it) o o1 o2 c -> active c = true ->
  c_D (step_c o o1 o2 c) <> 0.

Lemma agree_nonzero c : agree c -> nonzero c = active c.
Proof. intros (_ & _ & HD & H). unfold nonzero, active. lia. Qed.

Lemma counts_const k cs : Forall (fun c => nonzero c = true -> c_m c = k) cs ->
  counts cs = repeat k (length (filter nonzero cs)).
Proof.
  unfold counts. induction 1 as [|c cs Hc H IH]; [reflexivity|].
  cbn [filter]. destruct (nonzero c) eqn:E; [|exact IH].
  cbn [map length repeat]. rewrite IH, (Hc eq_refl). reflexivity.
Qed.

Lemma pass_counts it off off1 off2 k cs : Forall (P (S it) off off1 off2) cs ->
  Forall (fun c => nonzero c = true -> c_m c = k) cs -> forall n, 0 <= n ->
  let '(ds, n', bs) := pass off off1 off2 n cs in
  let nz := zlen (filter nonzero cs) in
  let j := Z.min n nz in
  counts ds = repeat (k + 1) (Z.to_nat j) ++ repeat k (Z.to_nat (nz - j)) /\
  n' = n - j /\ zlen bs = j /\ zlen (filter nonzero ds) = nz.
Proof.
  induction cs as [|c cs IH]; intros HP Hm n Hn.
  - cbn. replace (Z.min n 0) with 0 by lia. rewrite Z.sub_0_r. auto.
  - assert (Hstop : counts (c :: cs) = repeat k (Z.to_nat (zlen (filter nonzero (c :: cs))))).
    { rewrite (counts_const k _ Hm). f_equal. unfold zlen. lia. }
    pose proof (Forall_inv HP) as Pc. apply Forall_inv_tail in HP.
    pose proof (Forall_inv Hm) as Mc. apply Forall_inv_tail in Hm.
    pose proof (P_agree _ _ _ _ _ Pc) as Ac. apply agree_nonzero in Ac.
    cbn [pass]. destruct (n <=? 0) eqn:E.
    { cbv zeta. replace n with 0 by lia.
      pose proof (zlen_nonneg (filter nonzero (c :: cs))).
      replace (Z.min 0 (zlen (filter nonzero (c :: cs)))) with 0 by lia.
      cbn [Z.to_nat repeat app]. rewrite Z.sub_0_r. auto. }
    cbv zeta in IH. cbn [filter]. destruct (active c) eqn:Ea.
    + pose proof (P_nonzero _ _ _ _ _ Pc Ea) as Hnz.
      specialize (IH HP Hm (n - 1) ltac:(lia)).
      destruct (pass off off1 off2 (n - 1) cs) as [[ds n'] bs]. cbv zeta.
      destruct IH as (I1 & I2 & I3 & I4). rewrite Ac in *. unfold counts in *. cbn [filter].
      replace (nonzero (step_c off off1 off2 c)) with true by (unfold nonzero; lia).
      cbn [map]. rewrite I1. rewrite !zlen_cons.
      pose proof (zlen_nonneg (filter nonzero cs)).
      replace (Z.min n (1 + zlen (filter nonzero cs))) with (1 + Z.min (n - 1) (zlen (filter nonzero cs))) by lia.
      replace (Z.to_nat (1 + Z.min (n - 1) (zlen (filter nonzero cs))))
        with (S (Z.to_nat (Z.min (n - 1) (zlen (filter nonzero cs))))) by lia.
      split; [|lia]. cbn [repeat app step_c c_m]. rewrite (Mc Ac).
      do 2 f_equal. f_equal. lia.
    + specialize (IH HP Hm n Hn).
      destruct (pass off off1 off2 n cs) as [[ds n'] bs]. cbv zeta.
      destruct IH as (I1 & I2 & I3 & I4). rewrite Ac in *. unfold counts in *. cbn [filter].
      rewrite Ac. auto.
Qed.

Lemma pass_m it off off1 off2 k cs n : Forall (P (S it) off off1 off2) cs ->
  Forall (fun c => nonzero c = true -> c_m c = k) cs ->
  let '(ds, n', bs) := pass off off1 off2 n cs in
  0 < n' -> Forall (fun c => nonzero c = true -> c_m c = k + 1) ds.
Proof.
  intros H Hm. pose proof (pass_full off off1 off2 cs n) as Hf.
  destruct (pass off off1 off2 n cs) as [[ds n'] bs]. intros Hn. rewrite (Hf Hn).
  clear Hf Hn. induction H as [|c cs Pc H IH]; cbn [map]; [constructor|].
  constructor; [|apply IH; exact (Forall_inv_tail Hm)].
  pose proof (P_agree _ _ _ _ _ Pc) as Ac. apply agree_nonzero in Ac.
  destruct (active c) eqn:Ea; [|congruence].
  intros _. cbn [step_c c_m]. rewrite (Forall_inv Hm Ac). reflexivity.
Qed.

Lemma passes_counts it : forall off off1 off2 k n cs, 0 <= n ->
  Forall (P it off off1 off2) cs -> Forall (fun c => nonzero c = true -> c_m c = k) cs ->
  let '(ds, bs) := passes it off off1 off2 n cs in
  let nz := zlen (filter nonzero cs) in
  exists k' j, k <= k' /\ 0 <= j <= nz /\
    counts ds = repeat (k' + 1) (Z.to_nat j) ++ repeat k' (Z.to_nat (nz - j)) /\
    (k' - k) * nz + j = zlen bs /\ zlen bs = Z.min n (Z.of_nat it * nz).
Proof.
  induction it as [|it IH]; intros off off1 off2 k n cs Hn HP Hm; cbn [passes];
    pose proof (zlen_nonneg (filter nonzero cs)) as Hz.
  { exists k, 0. split; [lia|]. split; [lia|]. rewrite Z.sub_0_r, (counts_const k _ Hm).
    cbn [Z.to_nat repeat app]. split; [f_equal; unfold zlen; lia|]. change (zlen (@nil Z)) with 0. lia. }
  destruct (n <=? 0) eqn:E.
  { exists k, 0. split; [lia|]. split; [lia|]. rewrite Z.sub_0_r, (counts_const k _ Hm).
    cbn [Z.to_nat repeat app]. split; [f_equal; unfold zlen; lia|]. change (zlen (@nil Z)) with 0. nia. }
  pose proof (pass_counts it off off1 off2 k cs HP Hm n Hn) as Hc.
  pose proof (pass_P it off off1 off2 cs n HP) as HP2.
  pose proof (pass_m it off off1 off2 k cs n HP Hm) as Hm2.
  destruct (pass off off1 off2 n cs) as [[ds n'] bs]. cbv zeta in Hc |- *.
  destruct Hc as (C1 & C2 & C3 & C4). set (nz := zlen (filter nonzero cs)) in *.
  destruct (Z_lt_le_dec 0 n') as [Hn'|Hn'].
  - specialize (IH (off * lim / one) (off1 / 2) (off2 / 2) (k + 1) n' ds ltac:(lia) (HP2 Hn') (Hm2 Hn')).
    destruct (passes it _ _ _ n' ds) as [es bs']. cbv zeta in IH. rewrite C4 in IH.
    destruct IH as (k' & j & I1 & I2 & I3 & I4 & I5).
    exists k', j. split; [lia|]. split; [exact I2|]. split; [exact I3|].
    rewrite zlen_app. split; nia.
  - assert (Ep : passes it (off * lim / one) (off1 / 2) (off2 / 2) n' ds = (ds, [])).
    { destruct it; cbn [passes]; [reflexivity|]. replace (n' <=? 0) with true by lia. reflexivity. }
    rewrite Ep. rewrite app_nil_r. exists k, (Z.min n nz).
    split; [lia|]. split; [lia|]. split; [exact C1|]. split; nia.
Qed.

End Passes.
