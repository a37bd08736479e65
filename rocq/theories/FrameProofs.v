(** * Round trip of a whole frame *)
From Coq Require Import ZArith List Bool Lia ZifyBool.
From Verif Require Import Base BaseProofs BitsModel BitsWriteSafe BitsAbstract BitsWriteSim.
From Verif Require Import BitsReadSim BitsReadSafe BitsRoundTrip ConfigModel.
From Verif Require Import SideModel SideSpec SideProofs SpecModel SpecSpec SpecFrame FrameBase.
From Verif Require Import FloatModel FloatProofs ResidualModel ResidualSpec ResidualProofs ResidualInst ResidualModes.
From Verif Require Import FrameModel FrameSpec.
Import ListNotations.
Local Open Scope Z_scope.

Definition pitch_ops (f : frame) : list wop := if f_pitch f then ltpf_ops (f_ltpf f) else [].
Definition coeffs_ops (dt sr nbytes : Z) (f : frame) : list wop :=
  PutBits (f_nf f) 3 :: quantized_ops dt sr nbytes (f_q sr f) (q_lsb (f_side f)).
Definition main_ops (dt sr nbytes : Z) (f : frame) : list wop :=
  bw_ops sr (f_bw f) ++ side_ops dt sr (f_side f) ++ tns_ops (f_tns f) ++
  PutBits (b2z (f_pitch f)) 1 :: sns_ops (f_sns f) ++ pitch_ops f ++ coeffs_ops dt sr nbytes f.

(** Decoded values before the tail. *)
Definition main_decoded (sr : Z) (f : frame) : decoded :=
  let ts := without_lsb (q_lsb (f_side f)) (f_q sr f) in
  mkDecoded (f_bw f) (f_side f) (f_tns f) (sns_canon (f_sns f))
    (if f_pitch f then Some (f_ltpf f) else None) (f_nf f) ts (seed_of ts).

Lemma frame_quantized dt sr nbytes f : frame_ok dt sr nbytes f ->
  Forall (fun x => quantized (is_hr sr) x (quant rnd (is_hr sr) x)) (f_x f).
Proof.
  intros (_ & _ & _ & _ & _ & _ & _ & Hx & Hy). apply Forall_forall. intros x Hi.
  rewrite Forall_forall in Hx. destruct (Hx x Hi) as [F1 F2].
  apply quant_f32; [exact F1|exact F2|]. intros E. specialize (Hy E). rewrite Forall_forall in Hy.
  exact (Hy x Hi).
Qed.

Lemma frame_spectrum_ok dt sr nbytes f : frame_ok dt sr nbytes f -> spectrum_ok dt sr (f_q sr f).
Proof.
  intros H. pose proof (frame_quantized _ _ _ _ H) as Hq.
  destruct H as (_ & (_ & _ & Hn & He & _) & _ & _ & _ & _ & En & Hx & _).
  unfold spectrum_ok, f_q. rewrite zlen_map, <- En.
  split; [lia|]. split; [rewrite Zeven_mod, He; reflexivity|].
  clear - Hq Hx. induction Hx as [|x xs [_ Hb] Hx IH]; cbn [map]; constructor.
  - apply Forall_inv in Hq. destruct Hq as [Hq _]. pose proof one_pos as Ho.
    assert (Hz : one - zero_below (is_hr sr) < one) by (destruct (is_hr sr); vm_compute; reflexivity).
    assert (E : 2 ^ (if is_hr sr then 23 else 16) <= 2 ^ (if is_hr sr then 24 else 16))
      by (destruct (is_hr sr); vm_compute; discriminate).
    set (q := Z.abs (quant rnd (is_hr sr) x)) in *. nia.
  - apply IH. apply Forall_inv_tail in Hq. exact Hq.
Qed.

Lemma put_main_ops w dt sr nbytes f : frame_ok dt sr nbytes f ->
  put_main w dt sr nbytes f = fold_left wstep (main_ops dt sr nbytes f) w.
Proof.
  intros H. pose proof (frame_spectrum_ok _ _ _ _ H) as Hs.
  destruct H as (Hb & Hsd & Ht & Hn & Hp & Hf & _).
  unfold put_main, main_ops, coeffs_ops. cbv zeta.
  rewrite put_quantized_ops by exact Hs.
  rewrite put_bw_ops, put_side_ops, put_tns_ops. rewrite put_sns_ops by apply Hn.
  rewrite !fold_left_app. cbn [fold_left]. rewrite !fold_left_app. cbn [fold_left].
  assert (E : forall w, (if f_pitch f then put_ltpf w (f_ltpf f) else w) = fold_left wstep (pitch_ops f) w).
  { intros v. unfold pitch_ops. destruct (f_pitch f); [apply put_ltpf_ops|reflexivity]. }
  rewrite E. cbn [wstep]. unfold put_bit. reflexivity.
Qed.

Lemma pitch_ops_ok f : (f_pitch f = true -> ltpf_ok (f_ltpf f)) -> Forall op_ok (pitch_ops f).
Proof. unfold pitch_ops. destruct (f_pitch f); intros H; [apply ltpf_ops_ok; auto|constructor]. Qed.
Lemma coeffs_ops_ok dt sr nbytes f : 0 <= f_nf f < 8 -> Forall op_ok (coeffs_ops dt sr nbytes f).
Proof.
  intros H. unfold coeffs_ops. apply Forall_cons; [|apply quantized_ops_ok].
  cbn. change (2 ^ 3) with 8. lia.
Qed.
Lemma pitch_bit_ok f : op_ok (PutBits (b2z (f_pitch f)) 1).
Proof. destruct (f_pitch f); cbn; lia. Qed.

Lemma main_ops_ok dt sr nbytes f : frame_ok dt sr nbytes f -> Forall op_ok (main_ops dt sr nbytes f).
Proof.
  intros (Hb & Hsd & Ht & Hn & Hp & Hf & _). unfold main_ops.
  apply Forall_app; split; [apply bw_ops_ok; exact Hb|].
  apply Forall_app; split; [apply side_ops_ok; exact Hsd|].
  apply Forall_app; split; [eapply tns_ops_ok; exact Ht|].
  apply Forall_cons; [apply pitch_bit_ok|].
  apply Forall_app; split; [apply sns_ops_ok; exact Hn|].
  apply Forall_app; split; [apply pitch_ops_ok; exact Hp|apply coeffs_ops_ok; exact Hf].
Qed.

Lemma wops_bits_app a b : wops_bits (a ++ b) = wops_bits a + wops_bits b.
Proof. induction a as [|o a IH]; [reflexivity|]. cbn. fold (wops_bits a) (wops_bits (a ++ b)). lia. Qed.
Lemma wops_bits_nonneg ops : Forall op_ok ops -> 0 <= wops_bits ops.
Proof.
  induction 1 as [|o ops Ho _ IH]; cbn; [lia|]. fold (wops_bits ops). destruct o; cbn in *; lia.
Qed.

Lemma main_ops_bits dt sr nbytes f : frame_ok dt sr nbytes f -> 22 <= wops_bits (main_ops dt sr nbytes f).
Proof.
  intros H. pose proof (main_ops_ok _ _ _ _ H) as Hok. unfold main_ops in *.
  rewrite !wops_bits_app in *.
  apply Forall_app in Hok. destruct Hok as [O1 Hok]. apply Forall_app in Hok. destruct Hok as [O2 Hok].
  apply Forall_app in Hok. destruct Hok as [O3 Hok].
  pose proof (Forall_inv_tail Hok) as O4. apply Forall_app in O4. destruct O4 as [_ O5].
  apply wops_bits_nonneg in O1, O2, O3, O5.
  assert (E : wops_bits (PutBits (b2z (f_pitch f)) 1 :: sns_ops (f_sns f) ++ pitch_ops f ++ coeffs_ops dt sr nbytes f)
     = 39 + wops_bits (pitch_ops f ++ coeffs_ops dt sr nbytes f)).
  { set (rest := pitch_ops f ++ coeffs_ops dt sr nbytes f). unfold sns_ops. cbv zeta.
    cbn [app wops_bits fold_right wop_bits]. fold (wops_bits rest). lia. }
  lia.
Qed.

Lemma get_pitch_reads f : (f_pitch f = true -> ltpf_ok (f_ltpf f)) ->
  Reads (fun r => get_pitch r (b2z (f_pitch f))) (pitch_ops f)
    (if f_pitch f then Some (f_ltpf f) else None).
Proof.
  intros H. unfold get_pitch, pitch_ops. destruct (f_pitch f); cbn [b2z Z.eqb]; [|apply Reads_ret].
  specialize (H eq_refl). rewrite <- (app_nil_r (ltpf_ops _)).
  apply (Reads_bind get_ltpf (fun l r => (Some l, r)) _ _ (f_ltpf f)).
  - apply ltpf_ops_ok. exact H.
  - constructor.
  - apply get_ltpf_reads. exact H.
  - apply Reads_ret.
Qed.

Lemma get_coeffs_reads dt sr nbytes f : frame_ok dt sr nbytes f ->
  Reads (fun r => get_coeffs r dt sr nbytes (f_side f)) (coeffs_ops dt sr nbytes f)
    (Some (f_nf f, d_x (main_decoded sr f), d_seed (main_decoded sr f))).
Proof.
  intros H. pose proof (frame_spectrum_ok _ _ _ _ H) as Hs.
  destruct H as (_ & _ & _ & _ & _ & Hf & En & _).
  pose proof (coeffs_ops_ok dt sr nbytes f Hf) as Hok. unfold get_coeffs, coeffs_ops in *.
  apply (Reads_bits _ 3 _ (fun nf r =>
    let '(o, r) := get_quantized r dt sr nbytes (q_nq (f_side f)) (q_lsb (f_side f)) in
    (option_map (fun '(ts, seed) => (nf, ts, seed)) o, r)) _ (Forall_inv Hok) (Forall_inv_tail Hok)).
  rewrite <- (app_nil_r (quantized_ops _ _ _ _ _)).
  refine (Reads_bind _ (fun o r => (option_map (fun '(ts, seed) => (f_nf f, ts, seed)) o, r)) _ _ _ _
    (Forall_inv_tail Hok) (Forall_nil _) _ _).
  - rewrite En. replace (zlen (f_x f)) with (zlen (f_q sr f)) by (unfold f_q; apply zlen_map).
    apply get_quantized_reads. exact Hs.
  - apply Reads_ret.
Qed.

Lemma get_main_reads dt sr nbytes f : frame_ok dt sr nbytes f ->
  Reads (fun r => get_main true r dt sr nbytes) (main_ops dt sr nbytes f) (Some (main_decoded sr f)).
Proof.
  intros H. pose proof (main_ops_ok _ _ _ _ H) as Hok. pose proof (get_coeffs_reads _ _ _ _ H) as HC.
  destruct H as (Hb & Hsd & Ht & Hn & Hp & Hf & En & Hx).
  unfold main_ops in *. unfold get_main.
  apply Forall_app in Hok. destruct Hok as [O1 Hok].
  refine (Reads_bind2 (fun r => get_bw r sr) (fun ret bw r => _) _ _ _ _ _ O1 Hok (get_bw_reads sr (f_bw f) Hb) _).
  change (0 <? 0) with false. cbv iota.
  apply Forall_app in Hok. destruct Hok as [O2 Hok].
  refine (Reads_bind2 (fun r => get_spec_side r dt sr) (fun ret s r => _) _ _ _ _ _ O2 Hok
    (get_side_reads dt sr (f_side f) Hsd) _).
  change (0 <? 0) with false. cbv iota.
  apply Forall_app in Hok. destruct Hok as [O3 Hok].
  refine (Reads_bind (fun r => get_tns r dt (f_bw f) nbytes) (fun tns r => _) _ _ _ _ O3 Hok
    (get_tns_reads dt (f_bw f) nbytes (f_tns f) Ht) _).
  cbv iota beta.
  refine (Reads_step (PutBits _ 1) _ (fun p r => _) _ (Forall_inv Hok) (Forall_inv_tail Hok) _).
  cbn [op_value]. apply Forall_inv_tail in Hok.
  apply Forall_app in Hok. destruct Hok as [O4 Hok].
  refine (Reads_bind (fun r => get_sns true r) (fun sns r => _) _ _ _ _ O4 Hok (get_sns_reads (f_sns f) Hn) _).
  cbv iota beta.
  apply Forall_app in Hok. destruct Hok as [O5 Hok].
  refine (Reads_bind _ (fun l r => _) _ _ _ _ O5 Hok (get_pitch_reads f Hp) _).
  rewrite <- (app_nil_r (coeffs_ops _ _ _ _)).
  refine (Reads_bind _ (fun o r => _) _ _ _ _ Hok (Forall_nil _) HC _).
  apply Reads_ret.
Qed.

(** The end of the frame, with [n] bits. *)
Lemma get_tail_reads dt sr nbytes f n : frame_ok dt sr nbytes f ->
  exists ops d, Forall op_ok ops /\
    (forall w, (if q_lsb (f_side f) then put_lsb w n (f_q sr f)
                else put_residual rnd w n (is_hr sr) (f_x f)) = fold_left wstep ops w) /\
    Reads (get_tail n sr (main_decoded sr f)) ops d /\ same_side f d /\
    same_spectrum (q_lsb (f_side f)) (is_hr sr) n (f_x f) (f_q sr f) (d_x d) (d_seed d).
Proof.
  intros H. pose proof (frame_quantized _ _ _ _ H) as Hq. pose proof (frame_spectrum_ok _ _ _ _ H) as Hs.
  assert (Hq2 : Forall2 (quantized (is_hr sr)) (f_x f) (f_q sr f)).
  { unfold f_q. clear - Hq. induction Hq; cbn [map]; constructor; auto. }
  unfold get_tail, same_spectrum. change (d_side (main_decoded sr f)) with (f_side f).
  destruct (q_lsb (f_side f)) eqn:El.
  - set (zs := restore n (lsb_stream (f_q sr f)) (f_q sr f) (without_lsb true (f_q sr f))).
    exists (lsb_ops n (f_q sr f)), (d_set_x (main_decoded sr f) (map (fun z => z * one) zs) (seed_of zs)).
    split; [apply lsb_ops_ok|]. split; [intros w; apply put_lsb_ops|].
    split.
    { rewrite <- (app_nil_r (lsb_ops _ _)).
      refine (Reads_bind2 _ (fun xs seed r => _) _ _ _ _ _ (lsb_ops_ok _ _) (Forall_nil _) _ _).
      - unfold main_decoded. cbv zeta. cbn [d_x d_seed]. rewrite El.
        exact (get_lsb_reads0 (f_q sr f) n (proj1 (proj2 Hs))).
      - apply Reads_ret. }
    split; [unfold same_side; cbn; auto 10|].
    split; [exact Hq2|]. split; reflexivity.
  - assert (HR : exists bits ys ms,
      Forall is_bit bits /\
      (forall w, put_residual rnd w n (is_hr sr) (f_x f) = fold_left wstep (map bit_op bits) w) /\
      Reads (fun r => get_residual rnd r n (is_hr sr) (map (fun x => quant rnd (is_hr sr) x * one) (f_x f)))
        (map bit_op bits) ys /\
      length ys = length (f_x f) /\ length ms = length (f_x f) /\
      Forall2 (fun x p => (if is_hr sr then same_zero true else refined false) x (fst p) (snd p))
        (f_x f) (combine ys ms) /\
      in_turn (is_hr sr) (if is_hr sr then 20 else 1) n (f_x f) ms (zlen bits)).
    { destruct H as (_ & _ & _ & _ & _ & _ & _ & Hx & _). clear - Hq Hx.
      destruct (is_hr sr); [exact (residual_hr (f_x f) n Hq)|exact (residual_lr (f_x f) n Hx)]. }
    destruct HR as (bits & ys & ms & Hb & Ew & Hr & L1 & L2 & HR & Ht).
    exists (map bit_op bits), (d_set_x (main_decoded sr f) ys (seed_of (f_q sr f))).
    assert (Hops : Forall op_ok (map bit_op bits)) by (apply bit_ops_ok2; exact Hb).
    split; [exact Hops|]. split; [exact Ew|].
    assert (Ewl : without_lsb false (f_q sr f) = f_q sr f).
    { generalize (f_q sr f). intros l.
      induction l as [|x|x0 x1 xs IH] using pair_ind; cbn [without_lsb andb app]; congruence. }
    split.
    { rewrite <- (app_nil_r (map bit_op bits)).
      refine (Reads_bind _ (fun xs r => _) _ _ _ _ Hops (Forall_nil _) _ _).
      - unfold main_decoded. cbv zeta. cbn [d_x]. rewrite El, Ewl. unfold f_q. rewrite map_map. exact Hr.
      - unfold main_decoded. cbv zeta. cbn [d_seed]. rewrite El, Ewl. apply Reads_ret. }
    split; [unfold same_side; cbn; auto 10|].
    split; [exact Hq2|]. split; [reflexivity|]. split; [exact L1|].
    exists ms, (zlen bits). auto.
Qed.

Lemma frame_round_trip hw buf dt sr f : bytes buf -> frame_ok dt sr (zlen buf) f ->
  w_check (put_frame (w_setup buf) dt sr (zlen buf) f) = 0 ->
  let n := w_get_bits_left (put_main (w_setup buf) dt sr (zlen buf) f) in
  exists d r, get_frame true (r_setup hw (encode buf dt sr f)) dt sr (zlen buf) = (Some d, r) /\
    clean r /\ same_side f d /\
    same_spectrum (q_lsb (f_side f)) (is_hr sr) n (f_x f) (f_q sr f) (d_x d) (d_seed d).
Proof.
  intros Hb H Hc n. unfold encode, put_frame in *. cbv zeta in *. fold n in Hc |- *.
  pose proof (put_main_ops (w_setup buf) _ _ _ _ H) as Em.
  destruct (get_tail_reads _ _ _ _ n H) as (ops & d & Ho & Ew & HR & Hs1 & Hs2).
  rewrite Ew in *. unfold n in *. rewrite Em in *.
  destruct (frame_reads_tail hw buf _ ops _ (fun n o r => match o with
      | Some d => get_tail (Z.max n 0) sr d r | None => (d, r) end) _ d Hb (main_ops_ok _ _ _ _ H) Ho
      (main_ops_bits _ _ _ _ H) (get_main_reads _ _ _ _ H) HR Hc)
    as (r1 & r2 & E1 & EL & E2 & Hcl & He & Hl2 & Hl1).
  exists d, r2. unfold get_frame. rewrite E1. cbv iota in E2. unfold r_get_bits_left. rewrite E2.
  unfold r_check. rewrite He. replace (r_bits_left r2 <? 0) with false by lia. cbn [orb].
  change (0 <? 0) with false. cbv iota. split; [reflexivity|]. auto.
Qed.

(** Whatever the capacity, the writer stays inside of the frame. *)
Lemma encode_in_frame buf dt sr nbytes f : bytes buf -> frame_ok dt sr nbytes f ->
  let w := flush_bits (put_frame (w_setup buf) dt sr nbytes f) in
  w_oob w = false /\ w_ub w = false /\ w_stuck w = false /\
  zlen (w_buf w) = zlen buf /\ bytes (w_buf w).
Proof.
  intros Hb H. unfold put_frame. cbv zeta.
  set (n := w_get_bits_left _).
  pose proof (put_main_ops (w_setup buf) _ _ _ _ H) as Em.
  destruct (get_tail_reads _ _ _ _ n H) as (ops & d & Ho & Ew & _).
  rewrite Ew, Em, <- fold_left_app. apply writer_in_frame; [exact Hb|].
  apply Forall_app. split; (eapply Forall_impl; [exact op_wop_ok|]); [apply main_ops_ok; exact H|exact Ho].
Qed.
