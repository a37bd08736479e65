(** * Bits left after the spectrum of a frame *)
From Coq Require Import ZArith List Bool Lia ZifyBool.
From Verif Require Import Base BaseProofs Tables TableProofs BitsModel BitsWriteSafe BitsAbstract BitsWriteSim BitsRoundTrip.
From Verif Require Import ConfigModel SideModel SideSpec SideProofs SpecModel SpecSpec SpecProofs SpecPairs SpecFrame.
From Verif Require Import FloatModel ResidualModel ResidualSpec ResidualModes FrameModel FrameSpec FrameProofs.
From Verif Require Import BudgetModel BudgetSpec BudgetProofs BudgetCount.
Import ListNotations.
Local Open Scope Z_scope.

(** ** Room in the frame *)
Lemma a_left_step L a o : op_ok o -> a_ok a -> a_left L (astep a o) <= a_left L a.
Proof.
  intros Ho Ha. destruct o as [v n|m s]; cbn [astep].
  - unfold a_left. cbn [a_bits a_pos a_k a_R]. cbn [op_ok] in Ho. lia.
  - unfold a_left, a_sym. cbv zeta. cbn [a_pos a_k a_R]. destruct Ho as (Hm & Hs & Hsr).
    pose proof Ha as (HR & _ & Hk & _).
    destruct (sym_split (a_R a) m s (conj Hm (conj Hs Hsr)) HR) as (E1 & E2 & E3 & E4 & E5).
    set (R1 := a_R a / 1024 * sym_range m s) in *.
    assert (HR1 : 0 < R1 < 2 ^ 24) by lia. assert (Hle : R1 <= a_R a) by lia.
    destruct (jshift_spec R1 HR1) as (Hj & Hj2).
    unfold range_bits. replace (a_R a <=? 0) with false by lia. replace (R1 * 256 ^ jshift R1 <=? 0) with false by lia.
    assert (El : Z.log2 (R1 * 256 ^ jshift R1) = Z.log2 R1 + 8 * jshift R1).
    { change 256 with (2 ^ 8). rewrite <- Z.pow_mul_r by lia. rewrite Z.log2_mul_pow2 by lia. lia. }
    rewrite El. pose proof (Z.log2_le_mono R1 (a_R a) Hle). lia.
Qed.
Lemma a_left_steps L ops : Forall op_ok ops -> forall a, a_ok a -> a_left L (fold_left astep ops a) <= a_left L a.
Proof.
  induction 1 as [|o ops Ho _ IH]; intros a Ha; cbn [fold_left]; [lia|].
  eapply Z.le_trans; [apply IH, astep_ok; assumption|]. apply a_left_step; assumption.
Qed.
Lemma wsteps_room L ops : Forall op_ok ops -> forall w a, a_ok a -> WSim L w a -> 0 <= a_left L (fold_left astep ops a) ->
  WSim L (fold_left wstep ops w) (fold_left astep ops a).
Proof.
  induction 1 as [|o ops Ho Hos IH]; intros w a Ha HW Hl; [exact HW|].
  cbn [fold_left] in *. pose proof (astep_ok a o Ho Ha) as Ha'. apply IH; [exact Ha'| |exact Hl].
  apply wstep_room; [exact Ho|exact HW|]. eapply Z.le_trans; [exact Hl|]. apply a_left_steps; assumption.
Qed.

(** ** The bits of the side data *)
Lemma est_cons o ops : est (o :: ops) = est [o] + est ops.
Proof. change (o :: ops) with ([o] ++ ops). apply est_app. Qed.

Lemma bw_est sr bw : est (bw_ops sr bw) = 2048 * bw_nbits sr.
Proof.
  unfold bw_ops. destruct (0 <? bw_nbits sr) eqn:E; [rewrite est_bits, est_nil; lia|].
  assert (0 <= bw_nbits sr).
  { unfold bw_nbits. destruct (is_hr sr); [lia|]. pose proof (b2z_range (0 <? sr)). pose proof (b2z_range (1 <? sr)).
    pose proof (b2z_range (3 <? sr)). lia. }
  rewrite est_nil. lia.
Qed.
Lemma side_est dt sr d : est (side_ops dt sr d) = 2048 * (nbits_nq dt sr + 9).
Proof. unfold side_ops. rewrite !est_bits, est_nil. lia. Qed.
Lemma sns_est d : est (sns_ops d) = 2048 * sns_nbits.
Proof. unfold sns_ops, sns_nbits. rewrite !est_bits, est_nil. lia. Qed.
Lemma pitch_est f : est (pitch_ops f) = 2048 * (10 * b2z (f_pitch f)).
Proof.
  unfold pitch_ops. destruct (f_pitch f); cbn [b2z]; [|reflexivity]. unfold ltpf_ops. rewrite !est_bits, est_nil. lia.
Qed.

Lemma coeffs_est rc : forall i n, 0 <= Z.of_nat i -> Z.of_nat i + zlen rc <= 8 -> Forall (fun c => -8 <= c <= 8) rc ->
  fold_left (fun n '(i, c) => n + znth (znth tns_coeffs_bits (Z.of_nat i) []) (8 + c) 0)
    (combine (seq i (length rc)) rc) n = n + est (SideProofs.coeffs_ops (Z.of_nat i) rc).
Proof.
  induction rc as [|c rc IH]; intros i n Hi Hl H; cbn [length seq combine fold_left SideProofs.coeffs_ops].
  - rewrite est_nil. lia.
  - rewrite zlen_cons in Hl. pose proof (zlen_nonneg rc). pose proof (Forall_inv H) as Hc. cbv beta in Hc. apply Forall_inv_tail in H.
    rewrite IH by (auto; lia). rewrite est_sym. unfold tns_coeff_model.
    rewrite (chk_bits_ok 17 _ _ tns_coeffs_bits_cost); [|split; [exact Hi|apply (Z.lt_le_trans _ 8); [lia|vm_compute; congruence]]|split; [lia|change (Z.of_nat 17) with 17; lia]].
    replace (Z.of_nat (S i)) with (Z.of_nat i + 1) by lia. lia.
Qed.

Lemma filter_est lpcw rc : zlen rc <= 8 -> Forall (fun c => -8 <= c <= 8) rc ->
  est (filter_ops lpcw rc) <= 2048 * tns_filter_nbits lpcw rc.
Proof.
  intros Hl Hc. unfold tns_filter_nbits. cbv zeta.
  rewrite coeffs_est by (auto; lia). change (Z.of_nat 0) with 0.
  assert (E : est (filter_ops lpcw rc) = 2048 + (if 0 <? zlen rc then znth (znth tns_order_bits (b2z lpcw) []) (zlen rc - 1) 0 else 0)
    + est (SideProofs.coeffs_ops 0 rc)).
  { destruct rc as [|c rc].
    - cbn [filter_ops SideProofs.coeffs_ops]. rewrite est_bits, est_nil. change (0 <? zlen (@nil Z)) with false. cbv iota. lia.
    - cbn [filter_ops]. pose proof (zlen_cons c rc) as EL. pose proof (zlen_nonneg rc). replace (0 <? zlen (c :: rc)) with true by lia.
      rewrite est_bits, est_sym. unfold tns_order_model.
      rewrite (chk_bits_ok 8 _ _ tns_order_bits_cost); [lia| |lia].
      change (zlen tns_order_models) with 2. destruct lpcw; cbn; lia. }
  rewrite E. unfold shr. change (2 ^ 11) with 2048.
  generalize (2048 + (if 0 <? zlen rc then znth (znth tns_order_bits (b2z lpcw) []) (zlen rc - 1) 0 else 0)
    + est (SideProofs.coeffs_ops 0 rc)). intros x. clear. Z.div_mod_to_equations. lia.
Qed.

Lemma tns_est dt bw nbytes d : tns_ok dt bw nbytes d -> est (tns_ops d) <= 2048 * tns_nbits d.
Proof.
  intros (_ & _ & H). unfold tns_ops, tns_nbits.
  assert (G : forall n, 2048 * n + est (flat_map (filter_ops (t_weighting d)) (t_filters d)) <=
    2048 * fold_left (fun n rc => n + tns_filter_nbits (t_weighting d) rc) (t_filters d) n).
  { induction H as [|rc fs (Hl & Hc) _ IH]; intros n; cbn [flat_map fold_left]; [rewrite est_nil; lia|].
    pose proof (max_order_8 dt). rewrite est_app. pose proof (filter_est (t_weighting d) rc ltac:(lia) Hc).
    specialize (IH (n + tns_filter_nbits (t_weighting d) rc)). lia. }
  specialize (G 0). lia.
Qed.

(** ** Symbols *)
Lemma nsyms_bits v n ops : nsyms (PutBits v n :: ops) = nsyms ops. Proof. reflexivity. Qed.
Lemma nsyms_sym m s ops : nsyms (PutSym m s :: ops) = 1 + nsyms ops. Proof. reflexivity. Qed.
Lemma esc_nsyms n lut a b : forall j, nsyms (esc_w n lut a b j) = Z.of_nat n.
Proof.
  induction n as [|n IH]; intros j; [reflexivity|]. cbn [esc_w]. rewrite nsyms_app. unfold sym_op.
  rewrite nsyms_sym, IH. change (nsyms (bit_ops a b j)) with 0. lia.
Qed.
Lemma sign_nsyms x y : nsyms (sign_op x y) = 0.
Proof. unfold sign_op. destruct (y =? 0); reflexivity. Qed.
Lemma pair_nsyms lut lsb x0 x1 : nsyms (pair_w lut lsb x0 x1) = 1 + nesc (Z.abs x0) (Z.abs x1).
Proof.
  unfold pair_w. rewrite !nsyms_app, esc_nsyms. unfold sign_ops. rewrite nsyms_app, !sign_nsyms.
  destruct (lsb_first_le lsb (Z.abs x0) (Z.abs x1)) as (H & [E|E]); rewrite E in *; cbn [Z.eqb]; unfold sym_op;
    rewrite ?nsyms_sym; change (nsyms []) with 0; lia.
Qed.
Lemma pair_symbols_nesc x0 x1 : pair_symbols x0 x1 = 1 + nesc (Z.abs x0) (Z.abs x1).
Proof.
  unfold pair_symbols. cbv zeta. pose proof (nesc_pos (Z.abs x0) (Z.abs x1) ltac:(lia) ltac:(lia)) as H.
  pose proof (nesc_nonneg (Z.abs x0) (Z.abs x1)).
  destruct (Z.max (Z.abs x0) (Z.abs x1) <? 4) eqn:E; [lia|].
  unfold nesc in *. destruct (Z.lor (Z.abs x0) (Z.abs x1) <? 4); [lia|].
  rewrite Z.log2_lor by lia.
  destruct (Z.le_ge_cases (Z.abs x0) (Z.abs x1)) as [L|L].
  - rewrite (Z.max_r (Z.abs x0)) by lia. pose proof (Z.log2_le_mono _ _ L). lia.
  - rewrite (Z.max_l (Z.abs x0)) by lia. pose proof (Z.log2_le_mono _ _ L). lia.
Qed.
Lemma pairs_nsyms high lsb ne xs : forall i st, nsyms (pairs_w high lsb ne i st xs) = spectrum_symbols xs.
Proof.
  induction xs as [|x|x0 x1 xs IH] using pair_ind; intros i st; cbn [pairs_w spectrum_symbols]; [reflexivity|reflexivity|].
  rewrite nsyms_app, IH, pair_nsyms, pair_symbols_nesc. reflexivity.
Qed.
Lemma coeffs_nsyms rc : forall i, nsyms (SideProofs.coeffs_ops i rc) = zlen rc.
Proof.
  induction rc as [|c rc IH]; intros i; [reflexivity|]. cbn [SideProofs.coeffs_ops]. rewrite nsyms_sym, IH, zlen_cons. reflexivity.
Qed.
Lemma tns_nsyms d : nsyms (tns_ops d) = tns_symbols d.
Proof.
  unfold tns_ops, tns_symbols. induction (t_filters d) as [|rc fs IH]; [reflexivity|].
  cbn [flat_map fold_right]. rewrite nsyms_app, IH. f_equal. unfold filter_symbols.
  destruct rc as [|c rc]; [reflexivity|]. cbn [filter_ops]. rewrite nsyms_bits, nsyms_sym, coeffs_nsyms.
  pose proof (zlen_cons c rc). pose proof (zlen_nonneg rc). replace (zlen (c :: rc) =? 0) with false by lia. reflexivity.
Qed.

(** ** The count *)
Lemma small_of dt sr xs : spectrum_ok dt sr xs -> small xs.
Proof.
  intros (_ & _ & H). eapply Forall_impl; [|exact H]. cbv beta. intros x Hx.
  assert (2 ^ (if is_hr sr then 24 else 16) <= 2 ^ 32) by (apply Z.pow_le_mono_r; destruct (is_hr sr); lia). lia.
Qed.

Lemma compute_fits dt sr nbytes xs b n nbits lsb : 0 < b < 2 ^ 20 -> small xs -> Z.even (zlen xs) = true ->
  compute_nbits dt sr nbytes xs b = (n, nbits, lsb) ->
  0 <= n <= zlen xs /\ Z.even n = true /\ 0 <= nbits <= b /\
  est (quantized_ops dt sr nbytes (firstn (Z.to_nat n) xs) lsb) <= 2048 * b.
Proof.
  intros Hb Hx He H. unfold compute_nbits in H. destruct (resolve_modes sr nbytes) as [lm high] eqn:Em.
  replace (b =? 0) with false in H by lia.
  destruct (nbits_pairs _ _ _ _ _ _ _ _ _ _ _) as [[n' e] l] eqn:Ep.
  unfold INT_MAX in H. replace (2 ^ 31 - 1 <=? b * 2048) with false in H by lia.
  injection H as -> <- <-.
  destruct (nbits_pairs_spec high lm (c_ne dt sr) (b * 2048) xs Hx He 0 0 0 0 0 0 n e l ltac:(lia) Ep)
    as (m & Hm & Hm2 & Hr & Hl1 & Hl2 & _).
  assert (Hn : n = 2 * m /\ e = pcost high lm (c_ne dt sr) 0 0 (firstn (Z.to_nat (2 * m)) xs) /\ e <= b * 2048).
  { destruct (m =? 0) eqn:E0.
    - destruct Hr as [-> ->]. replace m with 0 by lia. split; [reflexivity|]. split; [|lia].
      change (Z.to_nat (2 * 0)) with 0%nat. unfold pcost. cbn. destruct lm; reflexivity.
    - destruct Hr as (-> & -> & Hr). lia. }
  destruct Hn as (-> & Ee & Hle). pose proof (pcost_nonneg high lm (c_ne dt sr) (firstn (Z.to_nat (2 * m)) xs) 0 0 ltac:(lia)) as P0.
  split; [lia|]. split; [rewrite Z.even_mul; reflexivity|].
  split.
  { split; [apply Z.div_pos; lia|]. apply Z.lt_succ_r, Z.div_lt_upper_bound; lia. }
  unfold quantized_ops, high_rate. rewrite Em. cbn [snd]. set (ys := firstn (Z.to_nat (2 * m)) xs) in *.
  pose proof (escds_lsbns ys) as EL. unfold pcost in *.
  destruct lm; cbn [andb]; [|lia].
  destruct (b * 2048 <? e + l * 2048) eqn:El.
  - rewrite est_pairs_true. lia.
  - lia.
Qed.

(** ** Nothing is dropped without need *)
Lemma allz_lsbns xs : allz xs -> lsbns xs = 0.
Proof.
  induction xs as [|x|x0 x1 xs IH] using pair_ind; intros H; [reflexivity|reflexivity|].
  pose proof (Forall_inv H) as H0. apply Forall_inv_tail in H. pose proof (Forall_inv H) as H1. apply Forall_inv_tail in H.
  cbv beta in H0, H1. subst. cbn [lsbns]. rewrite IH by exact H. reflexivity.
Qed.
Lemma lsbns_split xs : forall k, 0 <= k -> lsbns xs = lsbns (firstn (Z.to_nat (2 * k)) xs) + lsbns (skipn (Z.to_nat (2 * k)) xs).
Proof.
  induction xs as [|x|x0 x1 xs IH] using pair_ind; intros k Hk.
  - rewrite firstn_nil, skipn_nil. reflexivity.
  - destruct (Z.eq_dec k 0) as [->|Hk0]; [reflexivity|].
    replace (Z.to_nat (2 * k)) with (S (Z.to_nat (2 * k - 1))) by lia. cbn [firstn skipn]. rewrite firstn_nil, skipn_nil. reflexivity.
  - destruct (Z.eq_dec k 0) as [->|Hk0]; [reflexivity|].
    rewrite firstn_2, skipn_2 by lia. cbn [lsbns]. rewrite (IH (k - 1)) by lia. lia.
Qed.

Lemma spec_bits_bound : forallb (forallb (fun v => (0 <=? v) && (v <=? 20480))) spectrum_bits = true.
Proof. vm_compute. reflexivity. Qed.
Lemma spec_bits_le lut k s : spec_bits lut k s <= 20480.
Proof.
  unfold spec_bits. pose proof spec_bits_bound as H. rewrite forallb_forall in H.
  assert (G : forall l, In l spectrum_bits -> znth l s 0 <= 20480).
  { intros l Hl. specialize (H l Hl). rewrite forallb_forall in H. unfold znth. destruct (s <? 0); [lia|].
    destruct (Nat.lt_ge_cases (Z.to_nat s) (length l)) as [L|L].
    - specialize (H _ (nth_In l 0 L)). lia.
    - rewrite nth_overflow by exact L. lia. }
  unfold znth at 2. destruct (lut k <? 0); [unfold znth; destruct (s <? 0); [lia|]; destruct (Z.to_nat s); cbn; lia|].
  destruct (Nat.lt_ge_cases (Z.to_nat (lut k)) (length spectrum_bits)) as [L|L].
  - apply G, nth_In, L.
  - rewrite (nth_overflow spectrum_bits) by exact L. unfold znth. destruct (s <? 0); [lia|]. destruct (Z.to_nat s); cbn; lia.
Qed.
Lemma esc_cost_le lut a b j : LutOk lut -> 0 <= a -> 0 <= b -> 0 <= j <= nesc a b -> esc_cost lut a b j <= 20480.
Proof.
  intros Hl Ha Hb Hj. pose proof (sym_at_range a b j Ha Hb) as Hs. unfold esc_cost.
  rewrite <- spec_bits_cost by (auto; lia). apply spec_bits_le.
Qed.
Lemma est_esc_le n lut a b : forall j, LutOk lut -> 0 <= a -> 0 <= b -> 0 <= j -> j + Z.of_nat n <= nesc a b ->
  est (esc_w n lut a b j) <= 24576 * Z.of_nat n.
Proof.
  induction n as [|n IH]; intros j Hl Ha Hb Hj Hn; [cbn; lia|].
  rewrite est_esc. specialize (IH (j + 1) Hl Ha Hb ltac:(lia) ltac:(lia)).
  pose proof (esc_cost_le lut a b j Hl Ha Hb ltac:(lia)). lia.
Qed.
Lemma est_pair_le lut x0 x1 : LutOk lut -> Z.abs x0 < 2 ^ 24 -> Z.abs x1 < 2 ^ 24 ->
  est (pair_w lut false x0 x1) <= 565248.
Proof.
  intros Hl H0 H1. rewrite est_pair_false. cbv zeta.
  assert (Hn : 0 <= nesc (Z.abs x0) (Z.abs x1) <= 22).
  { split; [apply nesc_nonneg|]. unfold nesc. destruct (_ <? 4); [lia|].
    assert (Z.log2 (Z.lor (Z.abs x0) (Z.abs x1)) < 24); [|lia].
    destruct (Z.eq_dec (Z.lor (Z.abs x0) (Z.abs x1)) 0) as [E|E]; [rewrite E; reflexivity|].
    rewrite Z.log2_lor by lia. apply Z.max_lub_lt.
    - destruct (Z.eq_dec (Z.abs x0) 0) as [E0|E0]; [rewrite E0; reflexivity|]. apply Z.log2_lt_pow2; lia.
    - destruct (Z.eq_dec (Z.abs x1) 0) as [E0|E0]; [rewrite E0; reflexivity|]. apply Z.log2_lt_pow2; lia. }
  pose proof (est_esc_le (Z.to_nat (nesc (Z.abs x0) (Z.abs x1))) lut (Z.abs x0) (Z.abs x1) 0 Hl ltac:(lia) ltac:(lia) ltac:(lia) ltac:(lia)).
  pose proof (esc_cost_le lut (Z.abs x0) (Z.abs x1) (nesc (Z.abs x0) (Z.abs x1)) Hl ltac:(lia) ltac:(lia) ltac:(lia)).
  unfold nonz. pose proof (b2z_range (negb (Z.abs x0 =? 0))). pose proof (b2z_range (negb (Z.abs x1 =? 0))). lia.
Qed.
Definition small24 (xs : list Z) : Prop := Forall (fun x => Z.abs x < 2 ^ 24) xs.
Lemma small24_small xs : small24 xs -> small xs.
Proof. intros H. eapply Forall_impl; [|exact H]. cbv beta. lia. Qed.
Lemma ne_2m5_le sr : ne_2m5 sr <= 240.
Proof.
  unfold ne_2m5, znth. destruct (sr <? 0); [lia|].
  destruct (Nat.lt_ge_cases (Z.to_nat sr) 7) as [H|H]; [|rewrite nth_overflow by exact H; lia].
  generalize dependent (Z.to_nat sr). intros n Hn. do 7 (destruct n as [|n]; [cbn; lia|]). lia.
Qed.
Lemma small24_of dt sr xs : 0 <= dt <= 3 -> spectrum_ok dt sr xs -> small24 xs /\ zlen xs <= 960.
Proof.
  intros Hd (Hl & _ & H). split.
  - eapply Forall_impl; [|exact H]. cbv beta. intros x Hx.
    assert (2 ^ (if is_hr sr then 24 else 16) <= 2 ^ 24) by (apply Z.pow_le_mono_r; destruct (is_hr sr); lia). lia.
  - assert (c_ne dt sr <= 960); [|lia]. unfold c_ne. pose proof (ne_2m5_le sr). nia.
Qed.

Lemma pairs_bound high ne xs : small24 xs -> forall i st, 0 <= st < 256 ->
  2 * (est (pairs_w high false ne i st xs) + 2048 * lsbns xs) <= 573440 * zlen xs.
Proof.
  induction xs as [|x|x0 x1 xs IH] using pair_ind; intros Hx i st Hs.
  - cbn. lia.
  - cbn [pairs_w lsbns]. rewrite est_nil, zlen_cons. cbn. lia.
  - pose proof (Forall_inv Hx) as H0. apply Forall_inv_tail in Hx. pose proof (Forall_inv Hx) as H1. apply Forall_inv_tail in Hx.
    cbv beta in H0, H1. cbn [pairs_w lsbns]. rewrite est_app, !zlen_cons. specialize (IH Hx (i + 2) _ (pair_state_range st x0 x1)).
    pose proof (est_pair_le (lookup high (half ne i) st) x0 x1 (lookup_ok _ _ _ (half_range _ _) Hs) H0 H1).
    unfold lsbn. pose proof (b2z_range (Z.abs x0 =? 1)). pose proof (b2z_range (Z.abs x1 =? 1)).
    destruct (0 <? nesc _ _); lia.
Qed.
Lemma small24_firstn n xs : small24 xs -> small24 (firstn n xs).
Proof. apply Forall_firstn. Qed.

Lemma pairs_full dt sr nbytes xs b n nbits lsb lm high : 0 <= b < 2 ^ 20 -> small24 xs -> zlen xs <= 960 ->
  Z.even (zlen xs) = true -> resolve_modes sr nbytes = (lm, high) ->
  compute_nbits dt sr nbytes xs b = (n, nbits, lsb) ->
  exists m e l, 0 <= m /\ n = 2 * m /\ n <= zlen xs /\ e = pcost high lm (c_ne dt sr) 0 0 (firstn (Z.to_nat n) xs) /\
    0 <= e <= 275251200 /\ 0 <= l <= (if lm then lsbns xs else 0) /\ l <= 1920 /\
    (if lm then lsbns (firstn (Z.to_nat n) xs) else 0) <= l /\
    lsb = lm && ((if b =? 0 then INT_MAX else b * 2048) <? e + l * 2048) /\
    nbits = ((if b =? 0 then e + l * 2048 else e) + 2047) / 2048 /\
    (forall k, 0 <= k -> b = 0 \/ pcost high lm (c_ne dt sr) 0 0 (firstn (Z.to_nat (2 * k)) xs) <= b * 2048 ->
       allz (skipn (Z.to_nat n) (firstn (Z.to_nat (2 * k)) xs))) /\
    (0 < m -> ~ allz (skipn (Z.to_nat (2 * (m - 1))) (firstn (Z.to_nat n) xs))).
Proof.
  intros Hb Hx Hz He Em H. unfold compute_nbits in H. rewrite Em in H.
  set (budget := if b =? 0 then INT_MAX else b * 2048) in *.
  assert (Hi : INT_MAX = 2147483647) by reflexivity.
  assert (HB : (INT_MAX <=? budget) = (b =? 0)) by (unfold budget; destruct (b =? 0) eqn:E0; lia).
  destruct (nbits_pairs _ _ _ _ _ _ _ _ _ _ _) as [[n' e] l] eqn:Ep. rewrite HB in H.
  assert (En : n' = n) by congruence. assert (El : lsb = lm && (budget <? e + l * 2048)) by congruence.
  assert (Eb : nbits = ((if b =? 0 then e + l * 2048 else e) + 2047) / 2048) by congruence. clear H. subst n'.
  destruct (nbits_pairs_spec high lm (c_ne dt sr) budget xs (small24_small _ Hx) He 0 0 0 0 0 0 n e l ltac:(lia) Ep)
    as (m & Hm & Hm2 & Hr & Hl1 & Hl2 & Hk & Hzn).
  assert (PB : forall j, 0 <= pcost high lm (c_ne dt sr) 0 0 (firstn (Z.to_nat j) xs) <= 275251200).
  { intros j. split; [apply pcost_nonneg; lia|].
    pose proof (pairs_bound high (c_ne dt sr) _ (small24_firstn (Z.to_nat j) xs Hx) 0 0 ltac:(lia)) as B.
    pose proof (lsbns_nonneg (firstn (Z.to_nat j) xs)). pose proof (escds_lsbns (firstn (Z.to_nat j) xs)).
    assert (zlen (firstn (Z.to_nat j) xs) <= 960) by (unfold zlen in *; rewrite firstn_length; lia).
    unfold pcost. destruct lm; lia. }
  assert (Hne : n = 2 * m /\ e = pcost high lm (c_ne dt sr) 0 0 (firstn (Z.to_nat (2 * m)) xs)).
  { destruct (m =? 0) eqn:E0.
    - destruct Hr as [-> ->]. replace m with 0 by lia. split; [reflexivity|].
      change (Z.to_nat (2 * 0)) with 0%nat. unfold pcost. cbn. destruct lm; reflexivity.
    - destruct Hr as (-> & -> & Hr). lia. }
  destruct Hne as (-> & Ee). exists m, e, l. pose proof (PB (2 * m)) as P1.
  pose proof (lsbns_nonneg (firstn (Z.to_nat (2 * m)) xs)) as L1.
  assert (L2 : lsbns xs <= 1920).
  { clear - Hz. assert (G : forall xs, lsbns xs <= 2 * zlen xs); [|specialize (G xs); lia].
    clear. induction xs as [|x|x0 x1 xs IH] using pair_ind; [cbn; lia|cbn; lia|]. cbn [lsbns]. rewrite !zlen_cons.
    unfold lsbn. pose proof (b2z_range (Z.abs x0 =? 1)). pose proof (b2z_range (Z.abs x1 =? 1)).
    destruct (0 <? nesc _ _); lia. }
  split; [lia|]. split; [reflexivity|]. split; [lia|]. split; [exact Ee|]. split; [lia|].
  split; [destruct lm; lia|]. split; [destruct lm; lia|]. split; [destruct lm; lia|]. split; [exact El|]. split; [exact Eb|].
  split; [|exact Hzn].
  intros k Hk0 Hkb. apply Hk; [exact Hk0|]. unfold budget. specialize (PB (2 * k)).
  destruct (b =? 0) eqn:E0; [lia|]. destruct Hkb as [Hkb|Hkb]; lia.
Qed.

Lemma zero_lim : 0 <= 0 < 2 ^ 20. Proof. lia. Qed.
Lemma allz_app a b : allz (a ++ b) <-> allz a /\ allz b.
Proof. apply Forall_app. Qed.
Lemma allz_skipn n xs : allz xs -> allz (skipn n xs).
Proof. intros H. rewrite <- (firstn_skipn n xs) in H. apply Forall_app in H. apply H. Qed.
Lemma allz_firstn n xs : allz xs -> allz (firstn n xs).
Proof. intros H. rewrite <- (firstn_skipn n xs) in H. apply Forall_app in H. apply H. Qed.
Lemma skip_skip {A} n : forall m (l : list A), skipn n (skipn m l) = skipn (n + m) l.
Proof.
  intros m. induction m as [|m IH]; intros l; [rewrite Nat.add_0_r; reflexivity|].
  rewrite <- plus_n_Sm. destruct l as [|x l]; [rewrite !skipn_nil; reflexivity|]. cbn [skipn]. apply IH.
Qed.
Lemma allz_chain a b xs : allz (skipn a (firstn b xs)) -> allz (skipn b xs) -> allz (skipn a xs).
Proof.
  intros H1 H2. destruct (Nat.le_ge_cases a b) as [L|L].
  - rewrite <- (firstn_skipn b xs), skipn_app. apply allz_app. split; [exact H1|].
    apply allz_skipn. exact H2.
  - replace a with ((a - b) + b)%nat by lia. rewrite <- skip_skip. apply allz_skipn. exact H2.
Qed.

Lemma firstn_even_len {A} k (xs : list A) : Z.even (zlen xs) = true -> 0 <= k -> Z.even k = true -> Z.even (zlen (firstn (Z.to_nat k) xs)) = true.
Proof.
  intros H Hk Hk2. unfold zlen in *. rewrite firstn_length, Nat2Z.inj_min, Z2Nat.id by lia.
  destruct (Z.min_spec k (Z.of_nat (length xs))) as [[_ ->]|[_ ->]]; assumption.
Qed.

(** The count without limit is at least what is kept of any prefix. *)
Lemma prefix_kept dt sr nbytes xs b n nbits lsb k n0 t lsb0 : 0 < b < 2 ^ 20 -> small24 xs -> zlen xs <= 960 ->
  Z.even (zlen xs) = true -> 0 <= k -> Z.even k = true ->
  compute_nbits dt sr nbytes xs b = (n, nbits, lsb) ->
  compute_nbits dt sr nbytes (firstn (Z.to_nat k) xs) 0 = (n0, t, lsb0) -> t <= b ->
  keeps_all n (firstn (Z.to_nat k) xs).
Proof.
  intros Hb Hx Hz He Hk Hk2 H H0 Ht. destruct (resolve_modes sr nbytes) as [lm high] eqn:Em.
  assert (Hb0 : 0 <= b < 2 ^ 20) by lia.
  destruct (pairs_full _ _ _ _ _ _ _ _ _ _ Hb0 Hx Hz He Em H) as (m & e & l & _ & _ & _ & _ & _ & _ & _ & _ & _ & _ & HK & _).
  set (ys := firstn (Z.to_nat k) xs) in *.
  assert (Hzy : zlen ys <= zlen xs /\ zlen ys <= k) by (unfold ys, zlen; rewrite firstn_length; lia).
  destruct (pairs_full _ _ _ _ _ _ _ _ _ _ zero_lim (small24_firstn _ _ Hx) (Z.le_trans _ _ _ (proj1 Hzy) Hz)
    (firstn_even_len k xs He Hk Hk2) Em H0) as (m0 & e0 & l0 & Hm0 & -> & Hn0 & Ee0 & He0 & Hl0 & _ & _ & _ & Et & HK0 & _).
  fold ys in Hn0, Ee0, HK0. unfold keeps_all. apply (allz_chain _ (Z.to_nat (2 * m0))).
  - assert (Ef : firstn (Z.to_nat (2 * m0)) ys = firstn (Z.to_nat (2 * m0)) xs).
    { unfold ys. rewrite firstn_firstn. f_equal. lia. }
    rewrite Ef in *. apply HK; [lia|]. right. rewrite <- Ee0. cbn [Z.eqb] in Et. clear - Et Ht He0 Hl0.
    Z.div_mod_to_equations. lia.
  - specialize (HK0 (zlen ys) (zlen_nonneg _) (or_introl eq_refl)).
    rewrite (firstn_all2 (n := Z.to_nat (2 * zlen ys))) in HK0 by (unfold zlen; lia). exact HK0.
Qed.

Lemma all_kept dt sr nbytes xs b n nbits lsb n0 t lsb0 : 0 < b < 2 ^ 20 -> small24 xs -> zlen xs <= 960 ->
  Z.even (zlen xs) = true ->
  compute_nbits dt sr nbytes xs b = (n, nbits, lsb) ->
  compute_nbits dt sr nbytes xs 0 = (n0, t, lsb0) -> t <= b -> n = n0 /\ keeps_all n xs /\ lsb = false.
Proof.
  intros Hb Hx Hz He H H0 Ht. destruct (resolve_modes sr nbytes) as [lm high] eqn:Em.
  assert (Hb0 : 0 <= b < 2 ^ 20) by lia.
  destruct (pairs_full _ _ _ _ _ _ _ _ _ _ Hb0 Hx Hz He Em H)
    as (m & e & l & Hm & -> & Hn & Ee & _ & Hl & _ & Hlk & Elsb & _ & HK & HN).
  destruct (pairs_full _ _ _ _ _ _ _ _ _ _ zero_lim Hx Hz He Em H0)
    as (m0 & e0 & l0 & Hm0 & -> & Hn0 & Ee0 & He0 & Hl0 & _ & Hl0k & _ & Et & HK0 & HN0).
  specialize (HK0 (zlen xs) (zlen_nonneg _) (or_introl eq_refl)).
  rewrite (firstn_all2 (n := Z.to_nat (2 * zlen xs))) in HK0 by (unfold zlen; lia).
  cbn [Z.eqb] in Et.
  assert (Hc : e0 + l0 * 2048 <= b * 2048).
  { clear - Et Ht. Z.div_mod_to_equations. lia. }
  assert (HKm : allz (skipn (Z.to_nat (2 * m)) (firstn (Z.to_nat (2 * m0)) xs))).
  { apply HK; [lia|]. right. rewrite <- Ee0. lia. }
  assert (HA : allz (skipn (Z.to_nat (2 * m)) xs)) by exact (allz_chain _ _ _ HKm HK0).
  assert (sub : forall a c, a <= c - 1 -> 0 <= a -> allz (skipn (Z.to_nat (2 * a)) xs) -> allz (skipn (Z.to_nat (2 * (c - 1))) (firstn (Z.to_nat (2 * c)) xs))).
  { intros a c Ha Ha0 G. rewrite skipn_firstn_comm. apply allz_firstn.
    replace (Z.to_nat (2 * (c - 1))) with (Z.to_nat (2 * (c - 1)) - Z.to_nat (2 * a) + Z.to_nat (2 * a))%nat by lia.
    rewrite <- skip_skip. apply allz_skipn. exact G. }
  assert (E : m = m0).
  { destruct (Z.lt_trichotomy m m0) as [L|[L|L]]; [|exact L|].
    - exfalso. apply HN0; [lia|]. apply (sub m m0); [lia|lia|exact HA].
    - exfalso. apply HN; [lia|]. apply (sub m0 m); [lia|lia|exact HK0]. }
  subst m0. split; [reflexivity|]. split; [exact HA|].
  rewrite Elsb. replace (b =? 0) with false by lia. rewrite Ee, <- Ee0.
  destruct lm; [|reflexivity]. cbn [andb].
  assert (lsbns xs = lsbns (firstn (Z.to_nat (2 * m)) xs)).
  { rewrite (lsbns_split xs m) by lia. rewrite (allz_lsbns (skipn _ _)) by exact HA. lia. }
  lia.
Qed.

(** ** The frame *)
Lemma tail_bits sr f n : Forall (fun x => quantized (is_hr sr) x (quant rnd (is_hr sr) x)) (f_x f) ->
  Forall (coded_f32 (is_hr sr)) (f_x f) ->
  exists bits, Forall is_bit bits /\ zlen bits <= Z.max n 0 /\
    forall w, (if q_lsb (f_side f) then put_lsb w n (f_q sr f)
               else put_residual rnd w n (is_hr sr) (f_x f)) = fold_left wstep (map bit_op bits) w.
Proof.
  intros Hq Hx. destruct (q_lsb (f_side f)).
  - exists (firstn (Z.to_nat n) (concat (lsb_stream (f_q sr f)))).
    split; [apply Forall_firstn, lsb_stream_ok|]. split; [unfold zlen; rewrite firstn_length; lia|].
    intros w. apply put_lsb_ops.
  - destruct (is_hr sr).
    + destruct (residual_hr (f_x f) n Hq) as (bits & ys & ms & Hb & Ew & _ & _ & _ & _ & _ & _ & _ & _ & _ & _ & Ht).
      exists bits. split; [exact Hb|]. split; [lia|exact Ew].
    + destruct (residual_lr (f_x f) n Hx) as (bits & ys & ms & Hb & Ew & _ & _ & _ & _ & _ & _ & _ & _ & _ & _ & Ht).
      exists bits. split; [exact Hb|]. split; [lia|exact Ew].
Qed.

Lemma bits_steps L bits : forall a, a_left L (fold_left astep (map bit_op bits) a) = a_left L a - zlen bits.
Proof.
  induction bits as [|b bits IH]; intros a; cbn [map fold_left]; [cbn; lia|].
  rewrite IH, zlen_cons. unfold bit_op. cbn [astep]. unfold a_left, a_bits. cbn [a_pos a_k a_R]. lia.
Qed.

Lemma put_frame_ops w dt sr nbytes f : frame_ok dt sr nbytes f ->
  exists bits, Forall is_bit bits /\ zlen bits <= w_get_bits_left (put_main w dt sr nbytes f) /\
    put_frame w dt sr nbytes f = fold_left wstep (main_ops dt sr nbytes f ++ map bit_op bits) w.
Proof.
  intros H. pose proof (frame_quantized _ _ _ _ H) as Hq.
  assert (Hx : Forall (coded_f32 (is_hr sr)) (f_x f)) by (destruct H as (_ & _ & _ & _ & _ & _ & _ & Hx & _); exact Hx).
  destruct (tail_bits sr f (w_get_bits_left (put_main w dt sr nbytes f)) Hq Hx) as (bits & Hb & Hl & Ew).
  exists bits. split; [exact Hb|]. split; [unfold w_get_bits_left in *; lia|].
  unfold put_frame. cbv zeta. rewrite Ew, fold_left_app, put_main_ops by exact H. reflexivity.
Qed.

(** Once the main part fits, so does the frame. *)
Lemma main_fits buf dt sr f : bytes buf -> frame_ok dt sr (zlen buf) f ->
  0 <= a_left (zlen buf) (fold_left astep (main_ops dt sr (zlen buf) f) a_init) ->
  w_bits_left (put_main (w_setup buf) dt sr (zlen buf) f) =
    a_left (zlen buf) (fold_left astep (main_ops dt sr (zlen buf) f) a_init) /\
  w_check (put_frame (w_setup buf) dt sr (zlen buf) f) = 0.
Proof.
  intros Hb H Hl. pose proof (main_ops_ok _ _ _ _ H) as Hm.
  pose proof (wsteps_room _ _ Hm _ _ a_init_ok (WSim_init buf Hb) Hl) as W1.
  pose proof (WSim_left _ _ _ W1) as E1.
  rewrite <- put_main_ops in E1 by exact H. split; [exact E1|].
  destruct (put_frame_ops (w_setup buf) dt sr (zlen buf) f H) as (bits & Hbits & Hz & E).
  unfold w_get_bits_left in Hz. rewrite E1 in Hz. rewrite E.
  pose proof (bits_steps (zlen buf) bits (fold_left astep (main_ops dt sr (zlen buf) f) a_init)) as B.
  rewrite <- fold_left_app in B.
  assert (Ho : Forall op_ok (main_ops dt sr (zlen buf) f ++ map bit_op bits)).
  { apply Forall_app. split; [exact Hm|]. apply bit_ops_ok2. exact Hbits. }
  pose proof (wsteps_room _ _ Ho _ _ a_init_ok (WSim_init buf Hb) ltac:(lia)) as W2.
  unfold w_check. rewrite (WSim_left _ _ _ W2), B. replace (_ <? 0) with false by lia. reflexivity.
Qed.

Lemma main_est dt sr nbytes f :
  est (main_ops dt sr nbytes f) =
  2048 * (bw_nbits sr + nbits_nq dt sr + 9 + ltpf_nbits (f_pitch f) + sns_nbits + 3) + est (tns_ops (f_tns f)) +
  est (quantized_ops dt sr nbytes (f_q sr f) (q_lsb (f_side f))).
Proof.
  unfold main_ops, coeffs_ops. rewrite !est_app, est_bits, !est_app, est_bits, bw_est, side_est, sns_est, pitch_est.
  unfold ltpf_nbits. destruct (f_pitch f); cbn [b2z]; lia.
Qed.
Lemma main_nsyms dt sr nbytes f : nsyms (main_ops dt sr nbytes f) = tns_symbols (f_tns f) + spectrum_symbols (f_q sr f).
Proof.
  unfold main_ops, coeffs_ops. rewrite !nsyms_app, nsyms_bits, !nsyms_app, nsyms_bits, tns_nsyms.
  unfold quantized_ops. rewrite pairs_nsyms.
  assert (E1 : nsyms (bw_ops sr (f_bw f)) = 0) by (unfold bw_ops; destruct (0 <? bw_nbits sr); reflexivity).
  assert (E2 : nsyms (side_ops dt sr (f_side f)) = 0) by reflexivity.
  assert (E3 : nsyms (sns_ops (f_sns f)) = 0) by reflexivity.
  assert (E4 : nsyms (pitch_ops f) = 0) by (unfold pitch_ops; destruct (f_pitch f); reflexivity).
  lia.
Qed.

Lemma spare_bits_eq sr nbytes : 1 <= nbytes -> spare_bits (is_hr sr) nbytes = b2z (is_hr sr) + Z.min ((nbytes - 1) / 160) 2.
Proof.
  intros H. unfold spare_bits. replace (if is_hr sr then 1 else 0) with (b2z (is_hr sr)) by (destruct (is_hr sr); reflexivity). f_equal.
  destruct (nbytes <=? 160) eqn:E1; [|destruct (nbytes <=? 320) eqn:E2]; clear - H E1 E2 || clear - H E1; Z.div_mod_to_equations; lia.
Qed.

Lemma tns_nbits_nonneg dt bw nbytes d : tns_ok dt bw nbytes d -> 0 <= tns_nbits d.
Proof. intros H. pose proof (tns_est _ _ _ _ H). pose proof (est_nonneg _ (tns_ops_ok _ _ _ _ H)). lia. Qed.
Lemma nbits_nq_nonneg dt sr : 0 <= nbits_nq dt sr.
Proof.
  unfold nbits_nq. cbv zeta.
  repeat match goal with |- context [b2z ?b] => lazymatch goal with H : 0 <= b2z b <= 1 |- _ => fail | _ => pose proof (b2z_range b) end end. lia.
Qed.

Lemma room_arith nb bw nq lt sn tn hr sp S W C T Q A :
  8 * nb - W - 2 - (C + 46 * S) / 2048 <= A ->
  2048 * W + C = 2048 * (bw + nq + 9 + lt + sn + 3) + T + Q ->
  T <= 2048 * tn -> Q <= 2048 * (8 * nb - (nq + 3 + hr + sp) - bw - lt - sn - tn - 8 - 3) ->
  hr + sp - (46 * S) / 2048 <= A.
Proof.
  intros B E HT F. eapply Z.le_trans; [|exact B]. clear B. Z.div_mod_to_equations. lia.
Qed.
Lemma budget_small dt sr nbytes p tns : 1 <= nbytes <= 625 -> 0 <= tns_nbits tns ->
  spec_budget dt sr nbytes p tns < 2 ^ 20.
Proof.
  intros Hn T0. pose proof (nbits_nq_nonneg dt sr) as Q0. pose proof (b2z_range (is_hr sr)) as H0.
  assert (B0 : 0 <= bw_nbits sr).
  { unfold bw_nbits. destruct (is_hr sr); [lia|]. pose proof (b2z_range (0 <? sr)). pose proof (b2z_range (1 <? sr)).
    pose proof (b2z_range (3 <? sr)). lia. }
  assert (L0 : 1 <= ltpf_nbits p) by (unfold ltpf_nbits; pose proof (b2z_range p); lia).
  unfold spec_budget, nbits_ac, sns_nbits. assert (0 <= (nbytes - 1) / 160) by (apply Z.div_pos; lia).
  change (2 ^ 20) with 1048576. lia.
Qed.

Lemma est_eq ops : est ops = 2048 * wops_bits ops + ac_cost ops. Proof. reflexivity. Qed.
Lemma spec_budget_eq dt sr nbytes p tns : spec_budget dt sr nbytes p tns =
  8 * nbytes - (nbits_nq dt sr + 3 + b2z (is_hr sr) + Z.min ((nbytes - 1) / 160) 2) - bw_nbits sr - ltpf_nbits p -
  sns_nbits - tns_nbits tns - 8 - 3.
Proof. reflexivity. Qed.
Lemma main_room dt sr nbytes f xs n nbits : 1 <= nbytes <= 625 -> frame_ok dt sr nbytes f ->
  spectrum_ok dt sr xs -> 0 < spec_budget dt sr nbytes (f_pitch f) (f_tns f) ->
  compute_nbits dt sr nbytes xs (spec_budget dt sr nbytes (f_pitch f) (f_tns f)) = (n, nbits, q_lsb (f_side f)) ->
  f_q sr f = firstn (Z.to_nat n) xs ->
  spare_bits (is_hr sr) nbytes - (46 * (tns_symbols (f_tns f) + spectrum_symbols (f_q sr f))) / 2048
  <= a_left nbytes (fold_left astep (main_ops dt sr nbytes f) a_init).
Proof.
  intros Hn H Hxs Hb Hc Eq. pose proof (main_ops_ok _ _ _ _ H) as Hm.
  assert (Ht : tns_ok dt (f_bw f) nbytes (f_tns f)) by (destruct H as (_ & _ & Ht & _); exact Ht).
  pose proof (bits_left_bound nbytes _ Hm) as B. rewrite NN_val, main_nsyms in B.
  pose proof (tns_est _ _ _ _ Ht) as T. pose proof (tns_nbits_nonneg _ _ _ _ Ht) as T0.
  rewrite spare_bits_eq by apply Hn.
  pose proof (budget_small dt sr nbytes (f_pitch f) (f_tns f) Hn T0) as Hbud.
  destruct (compute_fits dt sr nbytes xs _ n nbits _ (conj Hb Hbud) (small_of _ _ _ Hxs) (proj1 (proj2 Hxs)) Hc) as (_ & _ & _ & F).
  rewrite <- Eq in F. pose proof (main_est dt sr nbytes f) as E.
  rewrite spec_budget_eq in F. rewrite (est_eq (main_ops _ _ _ _)) in E.
  exact (room_arith _ _ _ _ _ _ _ _ _ _ _ _ _ _ B E T F).
Qed.
