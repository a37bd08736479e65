(** * Residual bits in the two modes *)
From Coq Require Import ZArith List Bool Lia ZifyBool.
From Verif Require Import Base BaseProofs BitsModel FloatModel FloatProofs ResidualModel ResidualSpec.
From Verif Require Import BitsWriteSafe BitsAbstract BitsReadSim SideProofs SpecFrame ResidualProofs.
Import ListNotations.
Local Open Scope Z_scope.

(** The initial state of a coefficient. *)
Definition cell_of (fl : Z -> Z) (hr : bool) (x : Z) : cell :=
  mkC (if x <? 0 then -1 else 1) (Z.abs x) (Z.abs x) (Z.abs (quant fl hr x) * one) 0.

Lemma one_pos : 0 < one.
Proof. reflexivity. Qed.

Lemma cell_orig fl hr x : c_orig (cell_of fl hr x) = x.
Proof. unfold c_orig, cell_of. cbn [c_s c_O]. destruct (x <? 0) eqn:E; lia. Qed.
Lemma cell_enc fl hr x : c_enc (cell_of fl hr x) = x.
Proof. unfold c_enc, cell_of. cbn [c_s c_E]. destruct (x <? 0) eqn:E; lia. Qed.

Lemma map_cell_enc fl hr xs : map c_enc (map (cell_of fl hr) xs) = xs.
Proof.
  rewrite map_map. rewrite <- (map_id xs) at 2. apply map_ext. intros x. apply cell_enc.
Qed.

(** Sums to round are not negative: sign of the quantized value. *)
Lemma quant_sign fl hr x : (forall a, 0 <= a -> 0 <= fl a) ->
  let q := quant fl hr x in q <> 0 -> Z.sgn q = Z.sgn x.
Proof.
  intros Hf q Hq. unfold q, quant in *.
  assert (H : 0 <= fl (Z.abs x + quant_off hr) / one).
  { apply Z.div_pos; [|apply one_pos]. apply Hf.
    assert (0 <= quant_off hr) by (destruct hr; vm_compute; discriminate). lia. }
  set (v := fl (Z.abs x + quant_off hr) / one) in *. clearbody v.
  assert (0 < v) by (destruct (Z.eq_dec v 0) as [->|]; lia).
  rewrite Z.sgn_mul, Z.sgn_sgn, (Z.sgn_pos v) by lia. lia.
Qed.

Lemma cell_dec fl hr x : (forall a, 0 <= a -> 0 <= fl a) ->
  c_dec (cell_of fl hr x) = quant fl hr x * one.
Proof.
  intros Hf. pose proof (quant_sign fl hr x Hf) as Hs. cbv zeta in Hs.
  unfold c_dec, cell_of. cbn [c_s c_D]. set (q := quant fl hr x) in *. clearbody q.
  destruct (Z.eq_dec q 0) as [->|Hq]; [lia|]. specialize (Hs Hq).
  rewrite Z.mul_assoc. f_equal.
  rewrite <- (Z.abs_sgn q) at 2. rewrite Hs.
  destruct (x <? 0) eqn:E.
  - rewrite Z.sgn_neg by lia. lia.
  - assert (x <> 0) by (intros ->; change (Z.sgn 0) with 0 in Hs; apply Z.sgn_null_iff in Hs; lia).
    rewrite Z.sgn_pos by lia. lia.
Qed.

Lemma lim_eq hr : res_lim hr = zero_below hr.
Proof. destruct hr; reflexivity. Qed.

(** ** From the passes to the specification *)
Lemma nonzero_len z l1 : forall l2,
  map (fun c => (c_s c, c_O c)) l1 = map (fun c => (c_s c, c_O c)) l2 ->
  Forall (fun c => nonzero c = negb (c_O c <? z)) l1 ->
  Forall (fun c => nonzero c = negb (c_O c <? z)) l2 ->
  zlen (filter nonzero l1) = zlen (filter nonzero l2).
Proof.
  induction l1 as [|c l1 IH]; intros [|c2 l2] E H1 H2; cbn [map] in E; try discriminate; [reflexivity|].
  injection E as E1 E2 E. cbn [filter]. rewrite (Forall_inv H1), (Forall_inv H2), E2.
  specialize (IH l2 E (Forall_inv_tail H1) (Forall_inv_tail H2)).
  destruct (c_O c2 <? z); cbn [negb]; [exact IH|]. rewrite !zlen_cons, IH. reflexivity.
Qed.

Section Instance.
Variable fl : Z -> Z.
Hypothesis fl_opp : forall x, fl (- x) = - fl x.
Hypothesis fl_nonneg : forall a, 0 <= a -> 0 <= fl a.
Variable hr : bool.
Variable P : nat -> Z -> Z -> Z -> cell -> Prop.
Variable R : Z -> Z -> Z -> Prop.
Let lim := res_lim hr.
Let off := res_lim hr / 2.
Let off1 := if hr then one / 4 else 5 * one / 16.
Let off2 := if hr then one / 4 else 3 * one / 16.
Hypothesis P_agree : forall it o o1 o2 c, P (S it) o o1 o2 c -> agree lim c.
Hypothesis P_step : forall it o o1 o2 c, P (S it) o o1 o2 c ->
  P it (o * lim / one) (o1 / 2) (o2 / 2) (if active lim c then step_c fl lim o o1 o2 c else c).
Hypothesis P_nonzero : forall it o o1 o2 c, P (S it) o o1 o2 c -> active lim c = true ->
  c_D (step_c fl lim o o1 o2 c) <> 0.
(** Final facts: the count of a coefficient decoded as zero is zero. *)
Definition fin (c : cell) : Prop :=
  R (c_orig c) (c_dec c) (c_m c) /\ signed c /\ 0 <= c_O c /\ (c_D c = 0 <-> c_O c < zero_below hr).
Hypothesis P_final : forall it o o1 o2 c, P it o o1 o2 c -> fin c.

Lemma residual_inst xs n : Forall (fun x => P (res_iters hr) off off1 off2 (cell_of fl hr x)) xs ->
  exists bits ys ms,
    Forall is_bit bits /\
    (forall w, put_residual fl w n hr xs = fold_left wstep (map bit_op bits) w) /\
    Reads (fun r => get_residual fl r n hr (map (fun x => quant fl hr x * one) xs)) (map bit_op bits) ys /\
    length ys = length xs /\ length ms = length xs /\
    Forall2 (fun x p => R x (fst p) (snd p)) xs (combine ys ms) /\
    in_turn hr (Z.of_nat (res_iters hr)) n xs ms (zlen bits).
Proof.
  intros H.
  assert (Hl : 0 < lim) by (unfold lim; destruct hr; reflexivity).
  set (cs := map (cell_of fl hr) xs).
  assert (HP : Forall (P (res_iters hr) off off1 off2) cs).
  { unfold cs. clear - H. induction H; cbn [map]; constructor; auto. }
  set (res := passes fl lim (res_iters hr) off off1 off2 n cs).
  exists (snd res), (map c_dec (fst res)), (map c_m (fst res)).
  assert (Hdec : map c_dec cs = map (fun x => quant fl hr x * one) xs).
  { unfold cs. rewrite map_map. apply map_ext. intros x. apply cell_dec. exact fl_nonneg. }
  pose proof (passes_orig fl lim (res_iters hr) off off1 off2 n cs) as Ho. fold res in Ho.
  assert (Horig : map c_orig (fst res) = xs).
  { assert (E : map c_orig (fst res) = map (fun p => fst p * snd p) (map (fun c => (c_s c, c_O c)) (fst res))).
    { rewrite map_map. reflexivity. }
    rewrite E, Ho. rewrite map_map. unfold cs. rewrite map_map.
    rewrite <- (map_id xs) at 2. apply map_ext. intros x. apply (cell_orig fl hr). }
  pose proof (passes_Q fl lim P P_step fin P_final (res_iters hr) off off1 off2 n cs HP) as HQ.
  fold res in HQ.
  assert (Hlen : length (fst res) = length xs).
  { rewrite <- Horig at 1. rewrite map_length. reflexivity. }
  split; [apply passes_bits_ok|].
  split.
  { intros w. unfold put_residual. rewrite <- (map_cell_enc fl hr xs) at 1. fold cs. fold lim. fold off.
    apply (enc_passes fl fl_opp lim Hl P P_agree P_step). exact HP. }
  split.
  { unfold get_residual. fold off1 off2. rewrite <- Hdec.
    apply (dec_passes fl fl_opp lim P P_agree P_step). exact HP. }
  rewrite !map_length. split; [exact Hlen|]. split; [exact Hlen|].
  split.
  { rewrite <- Horig. clear - HQ. induction HQ as [|c l Hc HQ IH]; cbn [map combine]; constructor; [|exact IH].
    destruct Hc as (Hr & _). exact Hr. }
  (* counts *)
  assert (Hfil : filter (fun p => zero_below hr <=? Z.abs (fst p)) (combine xs (map c_m (fst res))) =
      map (fun c => (c_orig c, c_m c)) (filter nonzero (fst res))).
  { rewrite <- Horig at 1. clear - HQ.
    induction HQ as [|c l Hc HQ IH]; cbn [map combine filter]; [reflexivity|].
    cbn [fst]. destruct Hc as (_ & Hs & HO & Hz).
    replace (Z.abs (c_orig c)) with (c_O c) by (unfold c_orig; destruct Hs as [-> | ->]; lia).
    unfold nonzero at 1. destruct (c_D c =? 0) eqn:E; cbn [negb].
    - replace (zero_below hr <=? c_O c) with false by lia. exact IH.
    - replace (zero_below hr <=? c_O c) with true by lia. cbn [map]. f_equal. exact IH. }
  unfold in_turn. rewrite Hfil. rewrite map_map. cbn [snd].
  assert (Hm : Forall (fun c => nonzero c = true -> c_m c = 0) cs).
  { unfold cs. clear. induction xs; cbn [map]; constructor; auto. }
  assert (Hneg : passes fl lim (res_iters hr) off off1 off2 n cs =
                 passes fl lim (res_iters hr) off off1 off2 (Z.max n 0) cs).
  { destruct (Z_lt_le_dec 0 n) as [Hn|Hn]; [replace (Z.max n 0) with n by lia; reflexivity|].
    replace (Z.max n 0) with 0 by lia. destruct hr; cbn [res_iters passes];
      replace (n <=? 0) with true by lia; reflexivity. }
  pose proof (passes_counts fl lim P P_agree P_step P_nonzero (res_iters hr) off off1 off2 0
    (Z.max n 0) cs ltac:(lia) HP Hm) as Hc. rewrite <- Hneg in Hc. fold res in Hc.
  assert (Hnz : zlen (filter nonzero (fst res)) = zlen (filter nonzero cs)).
  { assert (Hcs : Forall (fun c => nonzero c = negb (c_O c <? zero_below hr)) (fst res)).
    { eapply Forall_impl; [|exact HQ]. intros c (_ & _ & HO & Hz). unfold nonzero. lia. }
    assert (Hcs0 : Forall (fun c => nonzero c = negb (c_O c <? zero_below hr)) cs).
    { eapply Forall_impl; [|exact HP]. intros c Hc0. apply P_final in Hc0.
      destruct Hc0 as (_ & _ & HO & Hz). unfold nonzero. lia. }
    exact (nonzero_len _ _ _ Ho Hcs Hcs0). }
  destruct res as [ds bs]. cbn [fst snd] in *.
  destruct Hc as (k & j & H1 & H2 & H3 & H4 & H5).
  exists k, j. rewrite zlen_map, Hnz. split; [lia|]. split; [exact H2|].
  unfold counts in H3. split; [exact H3|]. split; [lia|exact H5].
Qed.
End Instance.
