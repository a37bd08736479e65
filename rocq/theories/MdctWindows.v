(** * Transform: the tables of the code, gain of the windows, reconstruction *)
From Coq Require Import Reals ZArith List Bool Lia Lra ZifyBool.
From Verif Require Import Base BaseProofs ConfigModel MdctModel MdctProofs MdctFft MdctSpec MdctMath MdctExact MdctStream MdctTables MdctTwiddles.
Import ListNotations.
Local Open Scope Z_scope.

(** ** The tables of the code
    [conv] gives the number of the carrier from the integer stored in the tables. *)
Section Tables.
Context {F : Type} (conv : Z -> F).
Definition conv2 (c : Z * Z) : F * F := (conv (fst c), conv (snd c)).
Definition conv_3 (t : @bf3_twiddles Z) : @bf3_twiddles F := mkBf3 (t_n3 t) (map (fun c => (conv2 (fst c), conv2 (snd c))) (t_t3 t)).
Definition conv_2 (t : @bf2_twiddles Z) : @bf2_twiddles F := mkBf2 (t_n2 t) (map conv2 (t_t2 t)).
Definition conv_5 (k : @fft5_consts Z) : @fft5_consts F := mkK5 (conv (k_cos1 k)) (conv (k_cos2 k)) (conv (k_sin1 k)) (conv (k_sin2 k)).
Definition code_fft : @fft_tables F := mkFft (conv_5 tab_5) (map conv_3 tab_bf3) (map (map conv_2) tab_bf2).
Definition code_rot (dt sr : Z) : @mdct_rot F :=
  let r := znth (znth tab_rot dt []) sr (mkRot 0 []) in mkRot (r_n4 r) (map conv2 (r_w r)).
Definition code_win (dt sr : Z) : list F := map conv (znth (znth mdct_win dt []) sr []).
End Tables.

Definition all_cfg (f : Z -> Z -> bool) : bool :=
  forallb (fun dt => forallb (fun sr => ((dt =? 2) && (5 <=? sr)) || f dt sr) [0; 1; 2; 3; 4; 5; 6]) [0; 1; 2; 3].
Lemma all_cfg_ok f dt sr : all_cfg f = true -> has_transform dt sr -> f dt sr = true.
Proof.
  intros A (Hd & Hs & H7). unfold all_cfg in A. rewrite forallb_forall in A.
  assert (Id : In dt [0; 1; 2; 3]). { assert (C : dt = 0 \/ dt = 1 \/ dt = 2 \/ dt = 3) by lia. cbn [In]. intuition. }
  assert (Is : In sr [0; 1; 2; 3; 4; 5; 6]). { assert (C : sr = 0 \/ sr = 1 \/ sr = 2 \/ sr = 3 \/ sr = 4 \/ sr = 5 \/ sr = 6) by lia. cbn [In]. intuition. }
  specialize (A dt Id). cbv beta in A. rewrite forallb_forall in A. specialize (A sr Is). cbv beta in A.
  assert (N : (dt =? 2) && (5 <=? sr) = false) by (unfold DT_7M5, SRATE_48K_HR in H7; lia). rewrite N, orb_false_l in A. exact A.
Qed.

(** ** Sizes *)
Definition size3 (t : @bf3_twiddles Z) (L : Z) : bool := (t_n3 t =? L) && (zlen (t_t3 t) =? 3 * L).
Definition size2 (t : @bf2_twiddles Z) (L : Z) : bool := (t_n2 t =? L) && (zlen (t_t2 t) =? L).
Definition size_check : bool :=
  forallb (fun j => match rdt tab_bf3 j with Some t => size3 t (5 * 3 ^ j) | None => false end) [0; 1] &&
  forallb (fun '(a, j) => match rdt tab_bf2 j with Some row => match rdt row a with Some t => size2 t (5 * 3 ^ a * 2 ^ j) | None => false end | None => false end)
    [(0, 0); (0, 1); (0, 2); (0, 3); (0, 4); (1, 0); (1, 1); (1, 2); (1, 3); (1, 4); (2, 0); (2, 1)].
Lemma size_all : size_check = true.
Proof. vm_compute. reflexivity. Qed.
Lemma rot_win_all : all_cfg (fun dt sr => let r := znth (znth tab_rot dt []) sr (mkRot 0 []) in
  (r_n4 r =? c_ns dt sr / 2) && (zlen (r_w r) =? c_ns dt sr / 2) && (zlen (znth (znth mdct_win dt []) sr []) =? c_ns dt sr + c_nd dt sr)) = true.
Proof. vm_compute. reflexivity. Qed.

Lemma rdt_map {A B} (f : A -> B) t j x : rdt t j = Some x -> rdt (map f t) j = Some (f x).
Proof. unfold rdt. destruct (j <? 0); [discriminate|]. intros H. rewrite nth_error_map, H. reflexivity. Qed.
Lemma zlen_map {A B} (f : A -> B) l : zlen (map f l) = zlen l.
Proof. unfold zlen. rewrite map_length. reflexivity. Qed.

Section Shapes.
Context {F : Type} (conv : Z -> F).
Lemma code_shape3 j : 0 <= j < 2 -> exists tw, rdt (ft_bf3 (code_fft conv)) j = Some tw /\ shape3 tw (5 * 3 ^ j).
Proof.
  intros Hj. pose proof size_all as S. unfold size_check in S. apply andb_prop in S. destruct S as [S _]. rewrite forallb_forall in S.
  assert (I : In j [0; 1]). { cbn [In]. lia. } specialize (S j I). cbv beta in S.
  destruct (rdt tab_bf3 j) as [t|] eqn:E; [|discriminate]. exists (conv_3 conv t). split.
  - cbn [code_fft ft_bf3]. apply rdt_map. exact E.
  - unfold size3 in S. apply andb_prop in S. destruct S as [S1 S2]. apply Z.eqb_eq in S1, S2. unfold shape3, conv_3. cbn [t_n3 t_t3]. rewrite zlen_map. auto.
Qed.
Lemma code_shape2 a j : 0 <= a <= 2 -> 0 <= j < (if a =? 2 then 2 else 5) ->
  exists row tw, rdt (ft_bf2 (code_fft conv)) j = Some row /\ rdt row a = Some tw /\ shape2 tw (5 * 3 ^ a * 2 ^ j).
Proof.
  intros Ha Hj. pose proof size_all as S. unfold size_check in S. apply andb_prop in S. destruct S as [_ S]. rewrite forallb_forall in S.
  assert (I : In (a, j) [(0, 0); (0, 1); (0, 2); (0, 3); (0, 4); (1, 0); (1, 1); (1, 2); (1, 3); (1, 4); (2, 0); (2, 1)]).
  { assert (a = 0 \/ a = 1 \/ a = 2) as Ca by lia. assert (j = 0 \/ j = 1 \/ j = 2 \/ j = 3 \/ j = 4) as Cj by (destruct (a =? 2); lia).
    destruct Ca as [->|[->| ->]]; cbn [Z.eqb Pos.eqb] in Hj; destruct Cj as [->|[->|[->|[->| ->]]]]; cbn [In]; try lia; tauto. }
  specialize (S (a, j) I). cbv beta iota in S.
  destruct (rdt tab_bf2 j) as [row|] eqn:E; [|discriminate]. destruct (rdt row a) as [t|] eqn:E2; [|discriminate].
  exists (map (conv_2 conv) row), (conv_2 conv t). split; [|split].
  - cbn [code_fft ft_bf2]. apply (rdt_map (map (conv_2 conv))). exact E.
  - apply rdt_map. exact E2.
  - unfold size2 in S. apply andb_prop in S. destruct S as [S1 S2]. apply Z.eqb_eq in S1, S2. unfold shape2, conv_2. cbn [t_n2 t_t2]. rewrite zlen_map. auto.
Qed.
Lemma code_sizes dt sr : has_transform dt sr ->
  r_n4 (code_rot conv dt sr) = c_ns dt sr / 2 /\ zlen (r_w (code_rot conv dt sr)) = c_ns dt sr / 2 /\ zlen (code_win conv dt sr) = c_ns dt sr + c_nd dt sr.
Proof.
  intros Hc. pose proof (all_cfg_ok _ dt sr rot_win_all Hc) as A. cbv beta zeta in A.
  apply andb_prop in A. destruct A as [A A3]. apply andb_prop in A. destruct A as [A1 A2]. apply Z.eqb_eq in A1, A2, A3.
  unfold code_rot, code_win. cbv zeta. cbn [r_n4 r_w]. rewrite !zlen_map. auto.
Qed.
Lemma code_shapes dt sr : has_transform dt sr -> shapes (code_fft conv) (code_rot conv dt sr) (code_win conv dt sr) dt sr.
Proof.
  intros Hc. destruct (code_sizes dt sr Hc) as (E1 & E2 & E3). destruct (cfg_ok dt sr Hc) as (Q & _ & Ha & Hb & _).
  unfold shapes. cbv zeta. split; [|auto]. set (a := exp3 _) in *. set (b := exp2 _) in *. clearbody a b. split.
  - intros j Hj. apply code_shape3. lia.
  - intros j Hj. apply code_shape2; lia.
Qed.
End Shapes.

(** ** Gain of the windows *)
(** The gains for the samples of a frame, from a window of at most [2 ns] values. *)
Definition gain4 (c : (Z * Z) * (Z * Z)) : Z := fst (fst c) * snd (fst c) + fst (snd c) * snd (snd c).
Definition gains (ns : nat) (w : list Z) : list Z :=
  let w := w ++ repeat 0 (2 * ns - length w) in
  let a := firstn ns w in let b := skipn ns w in
  map gain4 (combine (combine a (rev b)) (combine b (rev a))).
Definition gain_ok (g : Z) : bool := Z.abs (g - 2 ^ 94) <=? 2 ^ 71.
Lemma gain_all : all_cfg (fun dt sr => forallb gain_ok (gains (Z.to_nat (c_ns dt sr)) (znth (znth mdct_win dt []) sr []))) = true.
Proof. vm_compute. reflexivity. Qed.

Lemma nth_firstn' {A} (l : list A) k n d : (n < k)%nat -> nth n (firstn k l) d = nth n l d.
Proof. revert k n. induction l as [|x l IH]; intros [|k] [|n] H; cbn; try reflexivity; try lia. apply IH. lia. Qed.
Lemma nth_skipn' {A} (l : list A) k n d : nth n (skipn k l) d = nth (k + n) l d.
Proof. revert k n. induction l as [|x l IH]; intros [|k] n; cbn; try reflexivity; [destruct n; reflexivity|apply IH]. Qed.
Lemma nth_app0 (l : list Z) k n : nth n (l ++ repeat 0 k) 0 = nth n l 0.
Proof.
  destruct (Nat.lt_ge_cases n (length l)) as [C|C].
  - rewrite app_nth1 by exact C. reflexivity.
  - rewrite app_nth2 by exact C. rewrite (nth_overflow l) by exact C. generalize (n - length l)%nat. clear. induction k as [|k IH]; intros [|m]; cbn; try reflexivity. apply IH.
Qed.
Lemma gains_nth ns w n : (n < ns)%nat -> (length w <= 2 * ns)%nat ->
  In (nth n w 0 * nth (2 * ns - 1 - n) w 0 + nth (ns + n) w 0 * nth (ns - 1 - n) w 0) (gains ns w).
Proof.
  intros Hn Hw. unfold gains. cbv zeta. set (w' := w ++ repeat 0 (2 * ns - length w)).
  assert (Lw : length w' = (2 * ns)%nat) by (unfold w'; rewrite app_length, repeat_length; lia).
  assert (La : length (firstn ns w') = ns) by (rewrite firstn_length; lia).
  assert (Lb : length (skipn ns w') = ns) by (rewrite skipn_length; lia).
  apply in_map_iff. exists ((nth n w 0, nth (2 * ns - 1 - n) w 0), (nth (ns + n) w 0, nth (ns - 1 - n) w 0)). split; [reflexivity|].
  replace ((nth n w 0, nth (2 * ns - 1 - n) w 0), (nth (ns + n) w 0, nth (ns - 1 - n) w 0))
    with (nth n (combine (combine (firstn ns w') (rev (skipn ns w'))) (combine (skipn ns w') (rev (firstn ns w')))) ((0, 0), (0, 0))).
  - apply nth_In. rewrite !combine_length, !rev_length, La, Lb. lia.
  - rewrite combine_nth by (rewrite !combine_length, !rev_length, La, Lb; reflexivity).
    rewrite !combine_nth by (rewrite rev_length, ?La, ?Lb; reflexivity).
    rewrite !rev_nth by lia. rewrite La, Lb.
    rewrite !nth_firstn' by lia. rewrite !nth_skipn'. unfold w'. rewrite !nth_app0.
    replace (ns + (ns - S n))%nat with (2 * ns - 1 - n)%nat by lia. replace (ns - S n)%nat with (ns - 1 - n)%nat by lia. reflexivity.
Qed.

Local Open Scope R_scope.
(** The value of a number of the tables. *)
Definition win_value (z : Z) : R := IZR z / IZR (2 ^ 47).
Definition twiddle_value (z : Z) : R := IZR z / IZR (2 ^ 80).

Lemma win_value_at l n : rat (map win_value l) n = win_value (nth (Z.to_nat n) l 0%Z).
Proof. unfold rat, at_. replace 0 with (win_value 0) by (unfold win_value; lra). apply map_nth. Qed.

Lemma code_gain dt sr n : has_transform dt sr -> (0 <= n < c_ns dt sr)%Z ->
  Rabs (window_gain (c_ns dt sr) (rat (code_win win_value dt sr)) n - 1) <= / IZR (2 ^ 23).
Proof.
  intros Hc Hn. pose proof (all_cfg_ok _ dt sr gain_all Hc) as A. cbv beta in A. rewrite forallb_forall in A.
  destruct (code_sizes win_value dt sr Hc) as (_ & _ & L). destruct (cfg_ok dt sr Hc) as (Q & _ & _ & _ & _ & Ens & _ & Hnd & _).
  unfold code_win in *. set (w := znth (znth mdct_win dt []) sr []) in *. set (ns := c_ns dt sr) in *. set (nd := c_nd dt sr) in *. clearbody w ns nd. clear Hc.
  rewrite zlen_map in L. unfold zlen in L.
  specialize (A _ (gains_nth (Z.to_nat ns) w (Z.to_nat n) ltac:(lia) ltac:(lia))). unfold gain_ok in A. apply Z.leb_le in A.
  unfold window_gain. rewrite !win_value_at.
  replace (Z.to_nat (2 * ns - 1 - n)) with (2 * Z.to_nat ns - 1 - Z.to_nat n)%nat by lia.
  replace (Z.to_nat (ns + n)) with (Z.to_nat ns + Z.to_nat n)%nat by lia.
  replace (Z.to_nat (ns - 1 - n)) with (Z.to_nat ns - 1 - Z.to_nat n)%nat by lia.
  unfold win_value. set (a := nth _ w _) in *. set (b := nth (2 * _ - 1 - _) w _) in *. set (c := nth (_ + _) w _) in *. set (d := nth (Z.to_nat ns - 1 - Z.to_nat n) w _) in *. clearbody a b c d.
  apply IZR_le in A. rewrite abs_IZR, minus_IZR, plus_IZR, !mult_IZR in A.
  set (x := IZR a * IZR b + IZR c * IZR d) in *.
  replace (IZR a / IZR (2 ^ 47) * (IZR b / IZR (2 ^ 47)) + IZR c / IZR (2 ^ 47) * (IZR d / IZR (2 ^ 47)) - 1) with ((x - IZR (2 ^ 94)) * / IZR (2 ^ 94)).
  2:{ unfold x. replace (IZR (2 ^ 94)) with (IZR (2 ^ 47) * IZR (2 ^ 47)) by (rewrite <- mult_IZR; reflexivity). field. apply not_0_IZR. discriminate. }
    rewrite Rabs_mult, (Rabs_pos_eq (/ _)) by (apply Rlt_le, Rinv_0_lt_compat, IZR_lt; reflexivity).
  apply Rle_trans with (IZR (2 ^ 71) * / IZR (2 ^ 94)).
  - apply Rmult_le_compat_r; [apply Rlt_le, Rinv_0_lt_compat, IZR_lt; reflexivity|exact A].
  - right. replace (IZR (2 ^ 94)) with (IZR (2 ^ 71) * IZR (2 ^ 23)) by (rewrite <- mult_IZR; reflexivity). field. split; apply not_0_IZR; discriminate.
Qed.

(** ** Reconstruction, from the initial state *)
Section Start.
Variables (T : @fft_tables R) (rot : @mdct_rot R) (dt sr : Z) (win ybuf zbuf : list R) (frames : list (list R)).
Let ns := c_ns dt sr.
Let nd := c_nd dt sr.
Hypothesis Hc : has_transform dt sr.
Hypothesis Ht : exact_tables T.
Hypothesis Hr : exact_rot rot ns.
Hypothesis Lw : zlen win = (ns + nd)%Z.
Hypothesis Ly : (ns <= zlen ybuf)%Z.
Hypothesis Lz : (ns <= zlen zbuf)%Z.
Hypothesis Lf : forall x, In x frames -> zlen x = ns.

Lemma start_ok : exists os, chain T rot ns nd win ybuf zbuf frames (repeat 0 (Z.to_nat nd)) (repeat 0 (Z.to_nat nd)) = Some os /\ length os = length frames /\
  forall j o, nth_error os j = Some o -> forall q, (0 <= q < ns)%Z ->
    rat o q = window_gain ns (rat win) ((ns - nd + q) mod ns) * samples ns frames (Z.of_nat j * ns + q - (2 * nd - ns)).
Proof.
  destruct (cfg_ok dt sr Hc) as (Q & HQ & _ & _ & _ & Ens & _ & Hnd & _). fold ns nd in Ens, Hnd.
  assert (Z0 : forall k q, rat (repeat 0 k) q = 0). { intros k q. unfold rat, at_. generalize (Z.to_nat q). induction k as [|k IH]; intros [|m]; cbn; try reflexivity. apply IH. }
  assert (LZ : zlen (repeat 0 (Z.to_nat nd)) = nd). { unfold zlen. rewrite repeat_length. lia. }
  destruct (chain_ok T rot dt sr win ybuf zbuf (samples ns frames) Hc Ht Hr Lw Ly Lz frames 0 (repeat 0 (Z.to_nat nd)) (repeat 0 (Z.to_nat nd))) as (os & E & L & V).
  - intros j x Hx. fold ns. split; [rewrite (Lf x (nth_error_In _ _ Hx)); lia|]. intros q Hq. unfold samples.
    replace ((0 + Z.of_nat j) * ns + q)%Z with (q + Z.of_nat j * ns)%Z by lia. assert (0 <= Z.of_nat j * ns)%Z by (apply Z.mul_nonneg_nonneg; lia).
    replace (q + Z.of_nat j * ns <? 0)%Z with false by lia. rewrite Z.mod_add, Z.mod_small, Z.div_add, Z.div_small, Z.add_0_l, Nat2Z.id by lia.
    rewrite (nth_error_nth _ _ _ Hx). reflexivity.
  - fold nd. lia.
  - fold nd. lia.
  - fold ns nd. intros q Hq. rewrite Z0. unfold samples. replace (0 * ns - nd + q <? 0)%Z with true by lia. reflexivity.
  - fold ns nd. intros q Hq. rewrite Z0. unfold overlap. fold ns nd.
    assert (W : forall n, rat win n * samples ns frames ((0 - 1) * ns - nd + n) = 0).
    { intros n. destruct (Z_lt_le_dec n (ns + nd)) as [C|C].
      - unfold samples. replace ((0 - 1) * ns - nd + n <? 0)%Z with true by lia. ring.
      - rewrite (w_zero dt sr win Lw n C). ring. }
    rewrite !W. ring.
  - exists os. fold ns nd in E, V. split; [exact E|]. split; [exact L|]. intros j o Ho q Hq. destruct (V j o Ho) as [_ Vo]. rewrite Vo by exact Hq. rewrite Z.add_0_l. reflexivity.
Qed.
End Start.

(** ** Exact tables exist *)
Definition idx (n : Z) : list Z := map Z.of_nat (seq 0 (Z.to_nat n)).
Definition ideal_3 (L : Z) : @bf3_twiddles R := mkBf3 L (map (fun k => (root (3 * L) k, root (3 * L) (2 * k))) (idx (3 * L))).
Definition ideal_2 (L : Z) : @bf2_twiddles R := mkBf2 L (map (root (2 * L)) (idx L)).
Definition ideal_5 : @fft5_consts R := mkK5 (cos (2 * PI / 5)) (cos (2 * PI * 2 / 5)) (- sin (2 * PI / 5)) (- sin (2 * PI * 2 / 5)).
Definition ideal_fft : @fft_tables R :=
  mkFft ideal_5 (map (fun j => ideal_3 (5 * 3 ^ j)) (idx 2)) (map (fun j => map (fun a => ideal_2 (5 * 3 ^ a * 2 ^ j)) (idx 3)) (idx 5)).
Definition ideal_rot (ns : Z) : @mdct_rot R :=
  mkRot (ns / 2) (map (fun k => (sqrt (sqrt (4 / IZR (2 * ns))) * cos (2 * PI * (IZR k + 1 / 8) / IZR (2 * ns)), sqrt (sqrt (4 / IZR (2 * ns))) * sin (2 * PI * (IZR k + 1 / 8) / IZR (2 * ns)))) (idx (ns / 2))).

Lemma idx_len n : (0 <= n)%Z -> zlen (idx n) = n.
Proof. intros H. unfold zlen, idx. rewrite map_length, seq_length. lia. Qed.
Lemma znth_idx {A} (f : Z -> A) n k d : (0 <= k < n)%Z -> znth (map f (idx n)) k d = f k.
Proof.
  intros H. unfold znth. replace (k <? 0)%Z with false by lia. rewrite (nth_indep _ d (f (Z.of_nat 0))). 2:{ unfold idx. rewrite !map_length, seq_length. lia. }
  rewrite (map_nth f). unfold idx. rewrite (map_nth Z.of_nat). rewrite seq_nth by lia. f_equal. lia.
Qed.
Lemma rdt_idx {A} (f : Z -> A) n k : (0 <= k < n)%Z -> rdt (map f (idx n)) k = Some (f k).
Proof.
  intros H. apply rdt_map. unfold rdt. replace (k <? 0)%Z with false by lia. unfold idx. rewrite nth_error_map.
  rewrite (nth_error_nth' _ 0%nat) by (rewrite seq_length; lia). rewrite seq_nth by lia. cbn. f_equal. lia.
Qed.
Lemma ideal_3_ok L : (0 <= L)%Z -> exact_3 (ideal_3 L) L.
Proof.
  intros HL. split.
  - split; [reflexivity|]. cbn [ideal_3 t_t3]. rewrite zlen_map. apply idx_len. lia.
  - intros k Hk. cbn [ideal_3 t_t3]. apply (znth_idx (fun k => (root (3 * L) k, root (3 * L) (2 * k)))). exact Hk.
Qed.
Lemma ideal_2_ok L : (0 <= L)%Z -> exact_2 (ideal_2 L) L.
Proof.
  intros HL. split.
  - split; [reflexivity|]. cbn [ideal_2 t_t2]. rewrite zlen_map. apply idx_len. lia.
  - intros k Hk. cbn [ideal_2 t_t2]. apply (znth_idx (root (2 * L))). exact Hk.
Qed.
Lemma ideal_ok a b : (0 <= a <= 2)%Z -> (b <= 5)%Z -> exact_fft ideal_fft a b.
Proof.
  intros Ha Hb. split; [|split].
  - repeat split.
  - intros j Hj. exists (ideal_3 (5 * 3 ^ j)). split; [cbn [ideal_fft ft_bf3]; apply (rdt_idx (fun j => ideal_3 (5 * 3 ^ j)) 2); lia|]. apply ideal_3_ok. pose proof (Z.pow_nonneg 3 j). lia.
  - intros j Hj. exists (map (fun a => ideal_2 (5 * 3 ^ a * 2 ^ j)) (idx 3)), (ideal_2 (5 * 3 ^ a * 2 ^ j)). split; [|split].
    + cbn [ideal_fft ft_bf2]. apply (rdt_idx (fun j => map (fun a => ideal_2 (5 * 3 ^ a * 2 ^ j)) (idx 3)) 5). lia.
    + apply (rdt_idx (fun a => ideal_2 (5 * 3 ^ a * 2 ^ j))). lia.
    + apply ideal_2_ok. pose proof (Z.pow_nonneg 3 a). pose proof (Z.pow_nonneg 2 j). apply Z.mul_nonneg_nonneg; lia.
Qed.
Lemma ideal_tables : exact_tables ideal_fft.
Proof. split; [|split]; apply ideal_ok; lia. Qed.
Lemma ideal_rot_ok ns : (0 <= ns)%Z -> exact_rot (ideal_rot ns) ns.
Proof.
  intros Hns. assert (0 <= ns / 2)%Z by (apply Z.div_pos; lia). split; [reflexivity|]. split.
  - cbn [ideal_rot r_w]. rewrite zlen_map. apply idx_len. assumption.
  - intros k Hk. cbn [ideal_rot r_w]. apply (znth_idx (fun k => (sqrt (sqrt (4 / IZR (2 * ns))) * cos (2 * PI * (IZR k + 1 / 8) / IZR (2 * ns)), sqrt (sqrt (4 / IZR (2 * ns))) * sin (2 * PI * (IZR k + 1 / 8) / IZR (2 * ns))))). exact Hk.
Qed.
