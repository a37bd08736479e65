(** * Proofs on the decoder calls *)
From Coq Require Import ZArith List Bool Lia ZifyBool.
From Verif Require Import Base BaseProofs ConfigModel ConfigSpec ConfigProofs FloatModel FloatProofs FrameModel DecoderModel DecoderSpec.
Import ListNotations.
Local Open Scope Z_scope.

(** ** Products *)

Lemma rnd_min_upper m a b : 0 <= m -> 0 <= a <= b -> (2 ^ Z.max m (Z.log2 a - 23) | b) -> rnd_min m a <= b.
Proof.
  intros Hm Hab [c Hb]. unfold rnd_min. set (e := Z.max m (Z.log2 a - 23)) in *.
  pose proof (pow2_pos e ltac:(lia)) as Hp.
  pose proof (Z.div_mod a (2 ^ e) ltac:(lia)). pose proof (Z.mod_pos_bound a (2 ^ e) Hp).
  set (q := a / 2 ^ e) in *. set (r := a mod 2 ^ e) in *.
  destruct ((2 * r <? 2 ^ e) || ((2 * r =? 2 ^ e) && Z.even q)) eqn:E.
  - lia.
  - subst b. assert (q < c) by nia. nia.
Qed.
Lemma rnd_min_nonneg m a : 0 <= m -> 0 <= a -> 0 <= rnd_min m a.
Proof.
  intros Hm Ha. unfold rnd_min. set (e := Z.max m (Z.log2 a - 23)).
  pose proof (pow2_pos e ltac:(lia)) as Hp. pose proof (Z.div_pos a (2 ^ e) Ha Hp).
  destruct (_ || _); nia.
Qed.

(** A single precision number, as a multiple of its last bit. *)
Lemma f32_last a : 0 <= a -> is_f32 a -> (2 ^ Z.max 0 (Z.log2 a - 23) | a).
Proof.
  intros Ha Hf. destruct (Z_le_gt_dec (Z.log2 a) 23) as [H|H].
  - rewrite Z.max_l by lia. apply Z.divide_1_l.
  - rewrite Z.max_r by lia. assert (Hpos : 0 < a).
    { destruct (Z.eq_dec a 0) as [->|]; [cbn in H; lia|lia]. }
    apply Z.mod_divide; [pose proof (pow2_pos (Z.log2 a - 23) ltac:(lia)); lia|].
    apply f32_mult; [exact Hf|lia|]. rewrite Z.abs_eq by lia. apply Z.log2_spec. exact Hpos.
Qed.

Lemma mag_mul_le a f : 0 <= a -> is_f32 a -> 0 <= f <= one -> rnd_min 149 (a * f) / 2 ^ 149 <= a.
Proof.
  intros Ha Hf Hi.
  assert (H : rnd_min 149 (a * f) <= a * 2 ^ 149).
  { change (2 ^ 149) with one. apply rnd_min_upper; [lia|nia|].
    destruct (f32_last a Ha Hf) as [c Hc]. set (e := Z.max 149 _).
    assert (He : e <= Z.max 0 (Z.log2 a - 23) + 149).
    { unfold e. apply Z.max_lub; [lia|].
      destruct (Z.eq_dec a 0) as [->|Hz]; [change (Z.log2 (0 * f)) with 0; lia|].
      assert (Z.log2 (a * f) <= Z.log2 (a * 2 ^ 149)) by (apply Z.log2_le_mono; change one with (2 ^ 149) in Hi; nia).
      rewrite Z.log2_mul_pow2 in * by lia. lia. }
    assert (0 <= e) by (unfold e; lia).
    rewrite Hc. set (k := Z.max 0 (Z.log2 a - 23)) in *. assert (0 <= k) by (unfold k; lia). clearbody k e.
    change one with (2 ^ 149). exists (c * 2 ^ (k + 149 - e)).
    rewrite <- !Z.mul_assoc, <- !Z.pow_add_r by lia. do 2 f_equal. lia. }
  apply Z.div_le_upper_bound; [apply pow2_pos; lia|]. rewrite (Z.mul_comm _ a). exact H.
Qed.

Lemma fmul_le a x : 0 <= a <= one -> is_f32 x -> Z.abs (fmul a x) <= Z.abs x.
Proof.
  intros Ha Hx. unfold fmul.
  assert (Hf : is_f32 (Z.abs x)).
  { destruct (Z.abs_eq_or_opp x) as [->| ->]; [exact Hx|]. unfold is_f32 in *. rewrite rnd_opp. lia. }
  pose proof (mag_mul_le (Z.abs x) a ltac:(lia) Hf Ha) as H.
  rewrite (Z.abs_eq a) by lia. rewrite (Z.mul_comm a).
  pose proof (rnd_min_nonneg 149 (Z.abs x * a) ltac:(lia) ltac:(nia)) as H0.
  assert (Hq : 0 <= rnd_min 149 (Z.abs x * a) / 2 ^ 149) by (apply Z.div_pos; [exact H0|apply pow2_pos; lia]).
  rewrite !Z.abs_mul. rewrite (Z.abs_eq (_ / _)) by exact Hq.
  destruct (Z.sgn_spec a) as [(_ & ->)|[(_ & ->)|(_ & ->)]];
    destruct (Z.sgn_spec x) as [(_ & ->)|[(_ & ->)|(_ & ->)]]; cbn [Z.abs]; lia.
Qed.

Lemma rnd_min_scale a : 0 <= a -> is_f32 a -> rnd_min 149 (a * 2 ^ 149) = a * 2 ^ 149.
Proof.
  intros Ha Hf. unfold rnd_min. set (e := Z.max 149 _).
  assert (Hd : (2 ^ e | a * 2 ^ 149)).
  { destruct (Z.eq_dec a 0) as [->|Hz]; [apply Z.divide_0_r|].
    destruct (f32_last a Ha Hf) as [c Hc]. unfold e. rewrite Z.log2_mul_pow2 by lia.
    replace (Z.max 149 (149 + Z.log2 a - 23)) with (Z.max 0 (Z.log2 a - 23) + 149) by lia.
    rewrite Z.pow_add_r by lia. rewrite Hc at 2. exists c. ring. }
  pose proof (pow2_pos e ltac:(lia)) as Hp.
  destruct Hd as [c Hc]. rewrite Hc. rewrite Z.mod_mul, Z.div_mul by lia.
  replace (2 * 0 <? 2 ^ e) with true by lia. reflexivity.
Qed.

Lemma fmul_one x : is_f32 x -> fmul one x = x.
Proof.
  intros Hx. unfold fmul. assert (Ho : 0 < one) by (vm_compute; reflexivity).
  assert (Hf : is_f32 (Z.abs x)).
  { destruct (Z.abs_eq_or_opp x) as [->| ->]; [exact Hx|]. unfold is_f32 in *. rewrite rnd_opp. lia. }
  rewrite (Z.sgn_pos one), (Z.abs_eq one), (Z.mul_comm one) by lia. change one with (2 ^ 149).
  rewrite rnd_min_scale by (try assumption; lia). rewrite Z.div_mul by (pose proof (pow2_pos 149 ltac:(lia)); lia).
  pose proof (Z.sgn_abs x). lia.
Qed.

(** ** Gain *)

Definition gain_step (n a : Z) : Z := fmul a (plc_factor n).

(** The same with shifts. *)
Definition rnd_shift (m a : Z) : Z :=
  let e := Z.max m (Z.log2 a - 23) in
  let q := Z.shiftr a e in
  let r := a - Z.shiftl q e in
  let p := Z.shiftl 1 e in
  Z.shiftl (if (2 * r <? p) || ((2 * r =? p) && Z.even q) then q else q + 1) e.
Definition gain_shift (n a : Z) : Z := Z.shiftr (rnd_shift 149 (a * plc_factor n)) 149.
Lemma rnd_shift_eq m a : 0 <= m -> rnd_shift m a = rnd_min m a.
Proof.
  intros Hm. unfold rnd_shift, rnd_min. set (e := Z.max m (Z.log2 a - 23)).
  assert (0 <= e) by (unfold e; lia). rewrite Z.shiftr_div_pow2, !Z.shiftl_mul_pow2 by assumption.
  rewrite Z.mul_1_l. rewrite (Z.mod_eq a (2 ^ e)) by (pose proof (pow2_pos e ltac:(assumption)); lia).
  rewrite (Z.mul_comm (2 ^ e) (a / 2 ^ e)). reflexivity.
Qed.
Lemma plc_factor_pos n : 0 < plc_factor n.
Proof. unfold plc_factor. destruct (n <? 4); [|destruct (n <? 8)]; reflexivity. Qed.
Lemma gain_shift_eq n a : 0 < a -> gain_shift n a = gain_step n a.
Proof.
  intros Ha. unfold gain_shift, gain_step, fmul. pose proof (plc_factor_pos n).
  rewrite rnd_shift_eq by lia. rewrite Z.shiftr_div_pow2 by lia.
  rewrite !Z.sgn_pos, !Z.abs_eq by lia. lia.
Qed.
Lemma rnd_shift_f32 a : 0 <= a -> rnd_shift 0 a = a -> rnd a = a.
Proof. intros Ha H. rewrite rnd_shift_eq in H by lia. rewrite rnd_pos_eq by exact Ha. exact H. Qed.

Fixpoint gains (k : nat) (n a : Z) : list Z :=
  match k with O => [] | S k => let b := gain_shift n a in b :: gains k (n + 1) b end.

(** Gains of the 655 first losses, then it does not change. *)
Definition gain_list : list Z := one :: gains 655 1 one.
Definition gain (n : Z) : Z := if n <? 656 then znth gain_list n 0 else 3.

(** All that is expected from a step. *)
Definition chk_step (n a b : Z) : bool :=
  (gain_shift n a =? b) && (rnd_shift 0 b =? b) && (0 <? b) && (b <=? a) &&
  (2 ^ 23 * Z.abs (100 * b - percent n * a) <=? 100 * (a + 2 ^ 23)) &&
  ((3 <? n) || (b =? one)) && ((n <? 651) || (a <=? 4)).
Fixpoint chk_gains (n a : Z) (l : list Z) : bool :=
  match l with
  | [] => a =? 3
  | b :: l => chk_step n a b && chk_gains (n + 1) b l
  end.
Lemma gains_checked : chk_gains 1 one (gains 655 1 one) = true.
Proof. vm_compute. reflexivity. Qed.

Lemma chk_gains_nth l : forall n a i, chk_gains n a l = true -> 0 <= i < zlen l ->
  chk_step (n + i) (znth (a :: l) i 0) (znth l i 0) = true.
Proof.
  induction l as [|b l IH]; intros n a i H Hi; [unfold zlen in Hi; cbn in Hi; lia|].
  cbn [chk_gains] in H. apply andb_prop in H. destruct H as [H1 H2].
  destruct (Z.eq_dec i 0) as [->|Hn]; [rewrite Z.add_0_r; exact H1|].
  assert (El : zlen (b :: l) = zlen l + 1) by (unfold zlen; cbn [length]; lia).
  specialize (IH (n + 1) b (i - 1) H2 ltac:(lia)).
  rewrite (znth_cons a (b :: l) i), (znth_cons b l i) by lia. replace (n + i) with (n + 1 + (i - 1)) by lia. exact IH.
Qed.
Lemma chk_gains_last l : forall n a, chk_gains n a l = true -> znth (a :: l) (zlen l) 0 = 3.
Proof.
  induction l as [|b l IH]; intros n a H; cbn [chk_gains] in H; [cbn; lia|].
  apply andb_prop in H. destruct H as [_ H]. specialize (IH _ _ H).
  assert (El : zlen (b :: l) = zlen l + 1) by (unfold zlen; cbn [length]; lia).
  pose proof (zlen_nonneg l). rewrite znth_cons by lia. rewrite El, Z.add_simpl_r. exact IH.
Qed.
Lemma gains_length : zlen (gains 655 1 one) = 655.
Proof. vm_compute. reflexivity. Qed.

Lemma gain_chk n : 0 <= n < 655 -> chk_step (n + 1) (gain n) (gain (n + 1)) = true.
Proof.
  intros Hn. unfold gain. replace (n <? 656) with true by lia. replace (n + 1 <? 656) with true by lia.
  pose proof gains_checked as H. pose proof gains_length as HL. unfold gain_list.
  set (l := gains 655 1 one) in *. clearbody l.
  rewrite (znth_cons one l (n + 1)) by lia. rewrite Z.add_simpl_r, (Z.add_comm n).
  apply chk_gains_nth; [exact H|lia].
Qed.
Lemma gain_end n : 655 <= n -> gain n = 3.
Proof.
  intros Hn. unfold gain. destruct (n <? 656) eqn:E; [|reflexivity]. replace n with 655 by lia.
  pose proof gains_checked as H. rewrite <- gains_length. exact (chk_gains_last _ _ _ H).
Qed.

Lemma gain_all n : 0 <= n -> chk_step (n + 1) (gain n) (gain (n + 1)) = true.
Proof.
  intros Hn. destruct (Z_lt_ge_dec n 655) as [H|H]; [apply gain_chk; lia|].
  rewrite !gain_end by lia. unfold chk_step, gain_shift, plc_factor, percent.
  replace (n + 1 <? 4) with false by lia. replace (n + 1 <? 8) with false by lia.
  replace (n + 1 <=? 3) with false by lia. replace (n + 1 <=? 7) with false by lia.
  replace (3 <? n + 1) with true by lia. rewrite orb_true_l, andb_true_r.
  change (3 <=? 4) with true. rewrite orb_true_r, andb_true_r.
  vm_compute. reflexivity.
Qed.

Lemma gain_step_eq n : 0 <= n -> gain_step (n + 1) (gain n) = gain (n + 1).
Proof.
  intros Hn. assert (Hp : 0 < gain n).
  { destruct (Z.eq_dec n 0) as [->|Hz]; [reflexivity|]. pose proof (gain_all (n - 1) ltac:(lia)) as H.
    rewrite Z.sub_add in H. unfold chk_step in H. do 4 (apply andb_prop in H; destruct H as [H _]).
    apply andb_prop in H. lia. }
  rewrite <- gain_shift_eq by exact Hp. pose proof (gain_all n Hn) as H. unfold chk_step in H.
  do 6 (apply andb_prop in H; destruct H as [H _]). lia.
Qed.

Lemma gain_is_law : gain_law gain.
Proof.
  split; [reflexivity|]. intros n Hn. pose proof (gain_all n Hn) as H. unfold chk_step in H.
  apply andb_prop in H. destruct H as [H H7]. apply andb_prop in H. destruct H as [H H6].
  apply andb_prop in H. destruct H as [H H5]. apply andb_prop in H. destruct H as [H H4].
  apply andb_prop in H. destruct H as [H H3]. apply andb_prop in H. destruct H as [H1 H2].
  change (one / 2 ^ 147) with 4. set (a := gain n) in *. set (b := gain (n + 1)) in *. clearbody a b.
  split; [apply rnd_shift_f32; lia|]. split; [lia|]. split; [lia|]. split; [intros; destruct (3 <? n + 1) eqn:E; lia|].
  intros. destruct (n + 1 <? 651) eqn:E; lia.
Qed.

(** ** Concealment *)

Lemma generator_eq s : Z.land (16831 + s * 12821) 65535 = generator s.
Proof.
  unfold generator. change 65535 with (Z.ones 16). rewrite Z.land_ones by lia. f_equal. lia.
Qed.
Lemma land_bit s n : 0 <= n -> (Z.land s (2 ^ n) =? 0) = negb (Z.testbit s n).
Proof.
  intros Hn. destruct (Z.testbit s n) eqn:E; cbn [negb].
  - apply Z.eqb_neq. intros H. assert (Hb : Z.testbit (Z.land s (2 ^ n)) n = true).
    { rewrite Z.land_spec, E, Z.pow2_bits_true by lia. reflexivity. }
    rewrite H, Z.bits_0 in Hb. discriminate.
  - apply Z.eqb_eq. apply Z.bits_inj'. intros m Hm. rewrite Z.land_spec, Z.bits_0.
    destruct (Z.eq_dec m n) as [->|Hne]; [rewrite E; reflexivity|].
    rewrite Z.pow2_bits_false by lia. apply andb_false_r.
Qed.

Definition seed_at (j : Z) : Z := Nat.iter (Z.to_nat j) generator 24607.
Lemma seed_next j : 0 <= j -> generator (seed_at j) = seed_at (j + 1).
Proof. intros Hj. unfold seed_at. replace (Z.to_nat (j + 1)) with (S (Z.to_nat j)) by lia. reflexivity. Qed.

Lemma plc_loop_eq n xs : forall j, 0 <= j ->
  plc_loop (gain n) (seed_at j) xs = (concealed gain n j xs, seed_at (j + zlen xs)).
Proof.
  induction xs as [|x xs IH]; intros j Hj; cbn [plc_loop concealed].
  - rewrite Z.add_0_r. reflexivity.
  - rewrite generator_eq, seed_next by exact Hj. rewrite IH by lia.
    assert (El : zlen (x :: xs) = zlen xs + 1) by (unfold zlen; cbn [length]; lia).
    replace (j + zlen (x :: xs)) with (j + 1 + zlen xs) by lia. do 3 f_equal.
    change 32768 with (2 ^ 15). rewrite land_bit by lia. unfold sign. fold (seed_at (j + 1)).
    destruct (Z.testbit (seed_at (j + 1)) 15); cbn [negb]; lia.
Qed.

(** ** Calls *)

Section calls.
  Context (shape : decoded -> list Z) (lf_first : bool) (hw : Z -> Z) (dt sr : Z).
  Hypothesis Hshape : forall d, zlen (shape d) = c_ne dt sr.
  Hypothesis Hne : 0 <= c_ne dt sr.

  (** State after the history [h], with [m] accepted calls. *)
  Definition state_after (c : dec_cfg) (m : nat) (h : history) : dec_state :=
    mkState (Nat.iter m complete c)
      (mkPlc (seed_at (c_ne dt sr * losses h)) (1 + losses_in_a_row h) (gain (losses_in_a_row h)))
      (last_spectrum shape (c_ne dt sr) h).

  Lemma losses_nonneg h : 0 <= losses_in_a_row h <= losses h.
  Proof. induction h as [|[d|] h IH]; cbn [losses losses_in_a_row]; lia. Qed.
  Lemma last_length h : zlen (last_spectrum shape (c_ne dt sr) h) = c_ne dt sr.
  Proof.
    induction h as [|[d|] h IH]; cbn [last_spectrum]; [|apply Hshape|exact IH].
    unfold zlen. rewrite repeat_length. lia.
  Qed.

  Lemma complete_iter_cfg c m : let ck := Nat.iter m complete c in
    d_dt ck = d_dt c /\ d_sr ck = d_sr c /\ d_srp ck = d_srp c.
  Proof. cbv zeta. induction m as [|m IH]; [auto|]. change (Nat.iter (S m) complete c) with (complete (Nat.iter m complete c)). destruct (Nat.iter m complete c). exact IH. Qed.

  Lemma call_step c m h inp nbytes : d_dt c = dt -> d_sr c = sr -> losses_in_a_row h + 2 <= INT_MAX ->
    let '(ret, y, h') := expected shape (fun data => decode lf_first hw data dt sr) gain (max_frame_bytes dt sr) (c_ne dt sr) h (inp, nbytes) in
    let m' := if ret =? -1 then m else S m in
    lc3_decode shape lf_first hw (Some (state_after c m h)) inp nbytes =
      Some (ret, y, Some (state_after c m' h')) /\
    losses_in_a_row h' <= losses_in_a_row h + 1.
  Proof.
    intros Hd Hs Hc. pose proof (losses_nonneg h) as H0.
    destruct (complete_iter_cfg c m) as (E1 & E2 & _).
    assert (Hloss : forall n' : Z, synthesize shape (state_after c m h) None =
      Some (concealed gain (losses_in_a_row h + 1) (c_ne dt sr * losses h) (last_spectrum shape (c_ne dt sr) h),
            mkState (Nat.iter m complete c) (mkPlc (seed_at (c_ne dt sr * (losses h + 1)))
              (1 + (losses_in_a_row h + 1)) (gain (losses_in_a_row h + 1))) (last_spectrum shape (c_ne dt sr) h))).
    { intros _. unfold synthesize, state_after, plc_synthesize. cbn [x_plc x_xg x_cfg p_alpha p_seed p_count].
      replace (1 + losses_in_a_row h) with (losses_in_a_row h + 1) by lia.
      fold (gain_step (losses_in_a_row h + 1) (gain (losses_in_a_row h))). rewrite gain_step_eq by lia.
      rewrite plc_loop_eq by nia. rewrite last_length.
      assert (Ec : cint (losses_in_a_row h + 1 + 1) = Some (losses_in_a_row h + 1 + 1)).
      { unfold cint. replace (_ && _) with true; [reflexivity|]. symmetry. unfold INT_MIN, INT_MAX in *.
        change (2 ^ 31) with 2147483648 in *. lia. }
      rewrite Ec. do 3 f_equal. f_equal; [f_equal; lia|lia]. }
    assert (Hcl : forall h' : history, mkState (complete (Nat.iter m complete c))
       (mkPlc (seed_at (c_ne dt sr * losses h')) (1 + losses_in_a_row h') (gain (losses_in_a_row h')))
       (last_spectrum shape (c_ne dt sr) h') = state_after c (S m) h') by reflexivity.
    unfold expected. destruct inp as [data|].
    - destruct ((20 <=? nbytes) && (nbytes <=? max_frame_bytes dt sr)) eqn:E.
      + destruct (decode lf_first hw (firstn (Z.to_nat nbytes) data) dt sr) as [d|] eqn:Ed.
        * cbv zeta. cbn [Z.eqb]. split; [|cbn [losses_in_a_row]; lia].
          unfold lc3_decode. cbn [x_cfg state_after]. rewrite E1, E2, Hd, Hs.
          replace ((nbytes <? 20) || (max_frame_bytes dt sr <? nbytes)) with false by lia.
          rewrite Ed. cbn [synthesize x_cfg x_plc x_xg]. unfold plc_suspend. cbn [p_seed].
          rewrite <- (Hcl (Some d :: h)). reflexivity.
        * cbv zeta. cbn [Z.eqb]. split; [|cbn [losses_in_a_row]; lia].
          unfold lc3_decode. cbn [x_cfg state_after]. rewrite E1, E2, Hd, Hs.
          replace ((nbytes <? 20) || (max_frame_bytes dt sr <? nbytes)) with false by lia.
          rewrite Ed. fold (state_after c m h). rewrite (Hloss 0). cbn [x_cfg x_plc x_xg].
          rewrite <- (Hcl (None :: h)). reflexivity.
      + cbv zeta. cbn [Z.eqb Z.opp]. change (-1 =? -1) with true. cbv iota. split; [|lia].
        unfold lc3_decode. cbn [x_cfg state_after]. rewrite E1, E2, Hd, Hs.
        replace ((nbytes <? 20) || (max_frame_bytes dt sr <? nbytes)) with true by lia. reflexivity.
    - cbv zeta. cbn [Z.eqb]. split; [|cbn [losses_in_a_row]; lia].
      unfold lc3_decode. cbn [x_cfg state_after]. fold (state_after c m h). rewrite (Hloss 0). cbn [x_cfg x_plc x_xg].
      rewrite <- (Hcl (None :: h)). reflexivity.
  Qed.

  Lemma calls_from c calls : d_dt c = dt -> d_sr c = sr ->
    forall m h, losses_in_a_row h + zlen calls + 1 <= INT_MAX ->
    exists st, run_calls shape lf_first hw (Some (state_after c m h)) calls =
      Some (expected_calls shape (fun data => decode lf_first hw data dt sr) gain
              (max_frame_bytes dt sr) (c_ne dt sr) h calls, st).
  Proof.
    intros Hd Hs. induction calls as [|[inp nbytes] calls IH]; intros m h Hc; cbn [run_calls expected_calls].
    - eexists. reflexivity.
    - assert (El : zlen ((inp, nbytes) :: calls) = zlen calls + 1) by (unfold zlen; cbn [length]; lia).
      pose proof (call_step c m h inp nbytes Hd Hs ltac:(pose proof (zlen_nonneg calls); lia)) as H.
      destruct (expected _ _ _ _ _ _ _) as [[ret y] h']. cbv zeta in H. destruct H as [-> H].
      destruct (IH (if ret =? -1 then m else S m) h' ltac:(lia)) as [st ->]. eexists. reflexivity.
  Qed.

  Lemma losses_repeat k : losses_in_a_row (repeat None k) = Z.of_nat k.
  Proof. induction k as [|k IH]; [reflexivity|]. cbn [repeat losses_in_a_row]. rewrite IH. lia. Qed.
  Lemma losses_from c k : d_dt c = dt -> d_sr c = sr ->
    Z.of_nat k + 1 <= INT_MAX -> forall rest,
    run_calls shape lf_first hw (Some (state_after c 0 [])) (repeat (None, 0) k ++ rest) =
      match run_calls shape lf_first hw (Some (state_after c k (repeat None k))) rest with
      | None => None
      | Some (outs, st) =>
          Some (expected_calls shape (fun data => decode lf_first hw data dt sr) gain
              (max_frame_bytes dt sr) (c_ne dt sr) [] (repeat (None, 0) k) ++ outs, st)
      end.
  Proof.
    intros Hd Hs Hk rest.
    cut (forall j m h, losses_in_a_row h + Z.of_nat j + 1 <= INT_MAX ->
      run_calls shape lf_first hw (Some (state_after c m h)) (repeat (None, 0) j ++ rest) =
      match run_calls shape lf_first hw (Some (state_after c (j + m) (repeat None j ++ h))) rest with
      | None => None
      | Some (outs, st) =>
          Some (expected_calls shape (fun data => decode lf_first hw data dt sr) gain
              (max_frame_bytes dt sr) (c_ne dt sr) h (repeat (None, 0) j) ++ outs, st)
      end).
    { intros H. specialize (H k O [] ltac:(cbn [losses_in_a_row]; lia)).
      rewrite Nat.add_0_r, app_nil_r in H. exact H. }
    induction j as [|j IH]; intros m h Hj.
    - cbn [repeat app expected_calls Nat.add]. destruct (run_calls _ _ _ _ rest) as [[? ?]|]; reflexivity.
    - cbn [repeat app run_calls expected_calls].
      pose proof (call_step c m h None 0 Hd Hs ltac:(lia)) as H.
      cbn [expected] in *. cbv zeta in H. cbn [Z.eqb] in H. destruct H as [-> H].
      rewrite (IH (S m) (None :: h)) by lia.
      replace (j + S m)%nat with (S j + m)%nat by lia.
      replace (repeat None j ++ None :: h) with (None :: repeat None j ++ h).
      + destruct (run_calls _ _ _ _ rest) as [[? ?]|]; reflexivity.
      + clear. induction j as [|j IH]; [reflexivity|]. cbn [repeat app]. f_equal. exact IH.
  Qed.

  Lemma losses_overflow c : d_dt c = dt -> d_sr c = sr ->
    run_calls shape lf_first hw (Some (state_after c 0 [])) (repeat (None, 0) (Z.to_nat (INT_MAX - 1)) ++ [(None, 0)])
      = None.
  Proof.
    intros Hd Hs. rewrite losses_from; [|exact Hd|exact Hs|]; [|rewrite Z2Nat.id by (unfold INT_MAX; lia); lia].
    set (k := Z.to_nat (INT_MAX - 1)). assert (Hk : Z.of_nat k = INT_MAX - 1) by (unfold k, INT_MAX; lia).
    clearbody k. cbn [run_calls]. unfold lc3_decode, state_after. cbn [synthesize x_cfg x_plc x_xg].
    unfold plc_synthesize. cbn [p_alpha p_seed p_count]. rewrite losses_repeat, Hk.
    destruct (plc_loop _ _ _) as [ys seed].
    assert (E : cint (1 + (INT_MAX - 1) + 1) = None) by reflexivity. rewrite E. reflexivity.
  Qed.
End calls.

Lemma init_state shape c : dec_init c = state_after shape (d_dt c) (d_sr c) c 0 [].
Proof.
  unfold state_after, dec_init, plc_reset, plc_suspend. cbn [losses losses_in_a_row last_spectrum Nat.iter p_seed].
  rewrite Z.mul_0_r. reflexivity.
Qed.

(** ** Concealed spectrum *)

Lemma sign_abs j x : Z.abs (sign j * x) = Z.abs x.
Proof. unfold sign. destruct (Z.testbit _ _); lia. Qed.
Lemma sign_f32 j x : is_f32 x -> is_f32 (sign j * x).
Proof.
  intros H. unfold sign. destruct (Z.testbit _ _); [|rewrite Z.mul_1_l; exact H].
  replace (-1 * x) with (- x) by lia. unfold is_f32 in *. rewrite rnd_opp. lia.
Qed.
Lemma gain_range g : gain_law g -> forall n, 0 <= n -> 0 <= g n <= one.
Proof.
  intros [H0 H]. apply natlike_ind; [rewrite H0; vm_compute; split; discriminate|].
  intros n Hn IH. replace (Z.succ n) with (n + 1) by lia. destruct (H n Hn) as (_ & H1 & _). lia.
Qed.
Lemma concealed_bounds g n xs : gain_law g -> 0 <= n -> forall j, Forall is_f32 xs ->
  Forall2 (fun x y => Z.abs y <= Z.abs x) xs (concealed g n j xs).
Proof.
  intros Hg Hn. induction xs as [|x xs IH]; intros j Hx; cbn [concealed]; constructor.
  - rewrite <- (sign_abs (j + 1) x). apply fmul_le; [apply gain_range; assumption|].
    apply sign_f32. exact (Forall_inv Hx).
  - apply IH. exact (Forall_inv_tail Hx).
Qed.
Lemma concealed_first g n xs : gain_law g -> 0 <= n <= 3 -> forall j, Forall is_f32 xs ->
  concealed g n j xs = map (fun p => sign (j + 1 + Z.of_nat (fst p)) * snd p) (combine (seq 0 (length xs)) xs).
Proof.
  intros [H0 Hg] Hn.
  assert (E : g n = one).
  { destruct (Z.eq_dec n 0) as [->|]; [exact H0|]. destruct (Hg (n - 1) ltac:(lia)) as (_ & _ & _ & H & _).
    rewrite Z.sub_add in H. apply H. lia. }
  induction xs as [|x xs IH]; intros j Hx; [reflexivity|].
  cbn [concealed length seq combine map fst snd]. rewrite E, fmul_one by (apply sign_f32; exact (Forall_inv Hx)).
  rewrite Z.add_0_r. f_equal. rewrite IH by exact (Forall_inv_tail Hx).
  rewrite <- seq_shift. clear. generalize (seq 0 (length xs)). intros l. revert xs.
  induction l as [|i l IH]; intros [|y ys]; [reflexivity..|]. cbn [map combine fst snd]. f_equal; [|apply IH].
  f_equal. f_equal. lia.
Qed.

Lemma decode_calls shape lf_first hw c calls :
  0 <= c_ne (d_dt c) (d_sr c) -> (forall d, zlen (shape d) = c_ne (d_dt c) (d_sr c)) ->
  zlen calls + 1 <= INT_MAX ->
  exists st, run_calls shape lf_first hw (Some (dec_init c)) calls =
    Some (expected_calls shape (fun data => decode lf_first hw data (d_dt c) (d_sr c)) gain
            (max_frame_bytes (d_dt c) (d_sr c)) (c_ne (d_dt c) (d_sr c)) [] calls, st).
Proof.
  intros Hn Hs Hc.
  rewrite (init_state shape c). apply calls_from; auto.
Qed.

(** ** Setups *)

Lemma setup_dec_cfg hr dt_us sr_hz sr_pcm_hz c n :
  hr_setup_decoder hr dt_us sr_hz sr_pcm_hz = Some (Some (c, n)) ->
  supported hr dt_us sr_hz /\ d_dt c = resolve_dt dt_us hr /\ d_sr c = resolve_srate sr_hz hr.
Proof.
  unfold hr_setup_decoder. cbv zeta. intros H.
  destruct (_ || _ || _) eqn:E in H; [discriminate|]. apply setup_guard in E. destruct E as (E & _ & _).
  destruct (dec_buffer_count _ _); [|discriminate]. injection H as <- _. auto.
Qed.
Lemma setup_enc_cfg hr dt_us sr_hz sr_pcm_hz c n :
  hr_setup_encoder hr dt_us sr_hz sr_pcm_hz = Some (Some (c, n)) ->
  supported hr dt_us sr_hz /\ e_dt c = resolve_dt dt_us hr /\ e_sr c = resolve_srate sr_hz hr.
Proof.
  unfold hr_setup_encoder. cbv zeta. intros H.
  destruct (_ || _ || _) eqn:E in H; [discriminate|]. apply setup_guard in E. destruct E as (E & _ & _).
  destruct (enc_buffer_count _ _); [|discriminate]. injection H as <- _. auto.
Qed.
Lemma setup_sizes hr dt_us sr_hz : supported hr dt_us sr_hz ->
  let dt := resolve_dt dt_us hr in let sr := resolve_srate sr_hz hr in
  min_frame_bytes dt sr = min_size hr dt_us sr_hz /\ max_frame_bytes dt sr = max_size hr dt_us sr_hz /\
  0 <= dt <= 3 /\ 0 <= sr <= 6 /\
  c_ne dt sr = samples dt_us (if hr then sr_hz else Z.min sr_hz 40000).
Proof. intros H. cbv zeta. supported_case H; cbv; intuition congruence. Qed.

