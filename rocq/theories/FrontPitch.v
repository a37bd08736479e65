(** * Pitch analysis of the encoder: accesses, results and overflows *)
From Coq Require Import ZArith List Bool Lia.
From Verif Require Import Base BaseProofs ConfigModel SideModel LtpfTables LtpfModel LtpfSpec LtpfProofs FrontModel FrontHp50 FrontProofs.
Import ListNotations.
Local Open Scope Z_scope.

Definition wide_ok (Q : Prop) (y : list Z) : Prop := Forall s16 y /\ (Q -> Forall (amp 32767) y).

Lemma mem_wide Q y : mem_ok Q y -> wide_ok Q y.
Proof. intros [H1 H2]. split; [exact H1|]. intros q. eapply Forall_impl; [|apply H2, q]. unfold amp, y_limit. lia. Qed.

Lemma s_rd2 (Q : Prop) (l : list Z) A i : Forall s16 l /\ (Q -> Forall (amp A) l) -> 0 <= i < zlen l ->
  spec Q (rdm l i) (fun v => s16 v /\ (Q -> Z.abs v <= A)).
Proof.
  intros [H1 H2] Hi. apply s_rd; [exact Hi|]. apply Forall_forall. intros v Hv. rewrite Forall_forall in H1. split; [apply H1, Hv|].
  intros q. specialize (H2 q). rewrite Forall_forall in H2. apply H2, Hv.
Qed.

Lemma mul_abs_le x y A : Z.abs x <= A -> Z.abs y <= A -> Z.abs (x * y) <= A * A.
Proof. intros Hx Hy. rewrite Z.abs_mul. apply Z.mul_le_mono_nonneg; lia. Qed.

Lemma dot_acc_spec (Q : Prop) a b : wide_ok Q a -> wide_ok Q b -> forall n pa pb v,
  0 <= pa -> pa + Z.of_nat n <= zlen a -> 0 <= pb -> pb + Z.of_nat n <= zlen b ->
  Z.abs v + Z.of_nat n * 2 ^ 30 < 2 ^ 62 ->
  spec Q (dot_acc n a pa b pb v) (fun r => Z.abs r <= Z.abs v + Z.of_nat n * 2 ^ 30 /\ (Q -> Z.abs r <= Z.abs v + Z.of_nat n * (32767 * 32767))).
Proof.
  intros Ha Hb. induction n as [|n IH]; intros pa pb v H1 H2 H3 H4 H; cbn [dot_acc]; [apply s_ret; lia|].
  eapply s_bind; [apply (s_rd2 Q a 32767); [exact Ha|lia]|]. intros x [Hx Hx'].
  eapply s_bind; [apply (s_rd2 Q b 32767); [exact Hb|lia]|]. intros y [Hy Hy'].
  assert (A1 : Z.abs (x * y) <= 2 ^ 15 * 2 ^ 15) by (apply mul_abs_le; [revert Hx|revert Hy]; unfold s16; clear; lia).
  assert (A2 : Q -> Z.abs (x * y) <= 32767 * 32767) by (intros q; apply mul_abs_le; auto).
  revert A1 A2. generalize (x * y). clear Hx Hx' Hy Hy' x y. intros q A1 A2.
  rewrite m32_in by lia. rewrite bind_ret. rewrite m64_in by lia. rewrite bind_ret.
  eapply s_weaken; [apply IH; lia|]. intros r [R1 R2]. split; [lia|]. intros HQ. specialize (R2 HQ). specialize (A2 HQ). lia.
Qed.

Lemma interpolate_row d : 0 <= d < 4 -> exists h0 h1 h2 h3, rdm h4_q15 d = ret [h0; h1; h2; h3] /\
  0 <= h0 /\ 0 <= h1 /\ 0 <= h2 /\ 0 <= h3 /\ h0 + h1 + h2 + h3 <= 32875.
Proof. revert d. apply range4; eexists _, _, _, _; (split; [reflexivity|]); lia. Qed.

Lemma weighted_le h x A : 0 <= h -> Z.abs x <= A -> Z.abs (x * h) <= A * h.
Proof. intros Hh Hx. rewrite Z.abs_mul, (Z.abs_eq h) by lia. apply Z.mul_le_mono_nonneg_r; lia. Qed.

Lemma interpolate_loop_spec (Q : Prop) x h0 h1 h2 h3 : mem_ok Q x ->
  0 <= h0 -> 0 <= h1 -> 0 <= h2 -> 0 <= h3 -> h0 + h1 + h2 + h3 <= 32875 ->
  forall n px x1 x2 x3, 0 <= px + 1 -> px + Z.of_nat n < zlen x ->
  s16 x1 /\ (Q -> Z.abs x1 <= y_limit) -> s16 x2 /\ (Q -> Z.abs x2 <= y_limit) -> s16 x3 /\ (Q -> Z.abs x3 <= y_limit) ->
  spec Q (interpolate_loop n x px [h0; h1; h2; h3] x1 x2 x3) (fun y => zlen y = Z.of_nat n /\ wide_ok Q y).
Proof.
  intros Hx G0 G1 G2 G3 G. induction n as [|n IH]; intros px x1 x2 x3 H1 H2 X1 X2 X3; cbn [interpolate_loop].
  { apply s_ret. split; [reflexivity|]. split; [constructor|intros; constructor]. }
  eapply s_bind; [apply (s_rd2 Q x y_limit); [exact Hx|lia]|]. intros x0 X0.
  change (rdm [h0; h1; h2; h3] 0) with (ret h0). change (rdm [h0; h1; h2; h3] 1) with (ret h1).
  change (rdm [h0; h1; h2; h3] 2) with (ret h2). change (rdm [h0; h1; h2; h3] 3) with (ret h3). rewrite !bind_ret.
  assert (W : forall z, s16 z -> Z.abs z <= 2 ^ 15) by (unfold s16; intros; lia).
  pose proof (weighted_le h0 x0 _ G0 (W _ (proj1 X0))) as B0. pose proof (weighted_le h1 x1 _ G1 (W _ (proj1 X1))) as B1.
  pose proof (weighted_le h2 x2 _ G2 (W _ (proj1 X2))) as B2. pose proof (weighted_le h3 x3 _ G3 (W _ (proj1 X3))) as B3.
  assert (Y : Q -> Z.abs (x0 * h0 + x1 * h1 + x2 * h2 + x3 * h3) <= y_limit * 32875).
  { intros q. pose proof (weighted_le h0 x0 _ G0 (proj2 X0 q)) as C0. pose proof (weighted_le h1 x1 _ G1 (proj2 X1 q)) as C1.
    pose proof (weighted_le h2 x2 _ G2 (proj2 X2 q)) as C2. pose proof (weighted_le h3 x3 _ G3 (proj2 X3 q)) as C3.
    revert C0 C1 C2 C3 G. generalize (x0 * h0) (x1 * h1) (x2 * h2) (x3 * h3). unfold y_limit. clear. lia. }
  revert B0 B1 B2 B3 Y. generalize (x0 * h0) (x1 * h1) (x2 * h2) (x3 * h3). intros c0 c1 c2 c3 B0 B1 B2 B3 Y.
  rewrite m32_in by lia. rewrite bind_ret. rewrite m32_in by lia. rewrite bind_ret. rewrite m32_in by lia. rewrite bind_ret.
  eapply s_bind.
  { apply s_m16. intros q. specialize (Y q). revert Y. unfold s16, y_limit, shr. clear. intros. Z.div_mod_to_equations. lia. }
  intros v [V1 V2].
  eapply s_bind; [apply IH; try assumption; lia|]. intros y [L [W1 W2]]. apply s_ret. rewrite zlen_cons.
  split; [lia|]. split; [constructor; assumption|]. intros q. constructor; [|auto].
  rewrite (V2 q). specialize (Y q). revert Y. unfold amp, y_limit, shr. clear. intros. Z.div_mod_to_equations. lia.
Qed.

Lemma interpolate_spec (Q : Prop) x px n d : mem_ok Q x -> 0 <= d < 4 -> 0 <= n <= 128 -> n mod 4 = 0 ->
  2 <= px -> px + n < zlen x -> spec Q (interpolate x px n d) (fun y => zlen y = n /\ wide_ok Q y).
Proof.
  intros Hx Hd Hn Hn4 H1 H2. unfold interpolate. eapply s_bind; [apply s_assert; rewrite Hn4; apply andb_true_iff; split; [apply Z.leb_le; lia|reflexivity]|].
  intros _ _. destruct (interpolate_row d Hd) as (h0 & h1 & h2 & h3 & E & G0 & G1 & G2 & G3 & G). rewrite E, bind_ret.
  eapply s_bind; [apply (s_rd2 Q x y_limit); [exact Hx|lia]|]. intros x3 X3.
  eapply s_bind; [apply (s_rd2 Q x y_limit); [exact Hx|lia]|]. intros x2 X2.
  eapply s_bind; [apply (s_rd2 Q x y_limit); [exact Hx|lia]|]. intros x1 X1.
  eapply s_weaken; [apply interpolate_loop_spec; try assumption; lia|]. intros y [L W]. rewrite L. split; [lia|exact W].
Qed.

Lemma s_rdF (Q : Prop) {F} (l : list F) i : 0 <= i < zlen l -> spec Q (rdm l i) (fun _ => True).
Proof. intros H. apply s_rd; [exact H|]. apply Forall_forall. auto. Qed.

(** Results of the search: the conditions under which the pitch has an index. *)
Definition found (e f : Z) : Prop :=
  32 <= e <= 228 /\ -3 <= f <= 3 /\ (f < 0 -> 32 < e) /\ (127 <= e -> f mod 2 = 0) /\ (157 <= e -> f = 0).

Section floats.
  Context {F : Type} (zero : F) (add sub mul div : F -> F -> F) (sqrt : F -> F) (lt le : F -> F -> bool)
    (ofz lit : Z -> F) (Q : Prop).

  Notation dot := (dot ofz).
  Notation correlate := (correlate ofz).

  Lemma dot_spec a pa b pb n : wide_ok Q a -> wide_ok Q b -> 0 <= n <= 128 ->
    0 <= pa -> pa + n <= zlen a -> 0 <= pb -> pb + n <= zlen b -> spec Q (dot a pa b pb n) (fun _ => True).
  Proof.
    intros Ha Hb Hn H1 H2 H3 H4. unfold FrontModel.dot.
    pose proof (Z.mul_div_le n 16 ltac:(lia)) as Hd. pose proof (Z.div_pos n 16 ltac:(lia) ltac:(lia)) as Hd0.
    set (k := 16 * (n / 16)) in *. assert (Hk : 0 <= k <= n) by lia. clearbody k.
    eapply s_bind; [apply dot_acc_spec; try assumption; rewrite ?Z2Nat.id by lia; lia|].
    rewrite Z2Nat.id by lia. intros v [V1 V2].
    rewrite m64_in by lia. rewrite bind_ret.
    eapply s_bind; [apply s_m32; intros q; specialize (V2 q); unfold shr; Z.div_mod_to_equations; lia|].
    intros t _. apply s_ret. trivial.
  Qed.

  Lemma correlate_spec a b n : wide_ok Q a -> wide_ok Q b -> 0 <= n <= 128 ->
    forall nc pa pb, 0 <= pa -> pa + n <= zlen a -> Z.of_nat nc <= pb + 1 -> (nc <> O -> pb + n <= zlen b) ->
    spec Q (correlate nc a pa b pb n) (fun r => zlen r = Z.of_nat nc).
  Proof.
    intros Ha Hb Hn. induction nc as [|nc IH]; intros pa pb H1 H2 H3 H4; cbn [FrontModel.correlate]; [apply s_ret; reflexivity|].
    eapply s_bind; [apply dot_spec; try assumption; lia|]. intros d _.
    eapply s_bind; [apply IH; lia|]. intros r Hr. cbv beta in Hr. apply s_ret. rewrite zlen_cons. lia.
  Qed.

  Lemma argmax_loop_spec r off n : forall i arg mx, 0 <= off -> 0 <= i -> off + i + Z.of_nat n <= zlen r -> 0 <= arg < i ->
    spec Q (argmax_loop lt n r off i arg mx) (fun a => 0 <= fst a < i + Z.of_nat n).
  Proof.
    induction n as [|n IH]; intros i arg mx H1 H2 H3 H4; cbn [argmax_loop]; [apply s_ret; cbn [fst]; lia|].
    eapply s_bind; [apply s_rdF; lia|]. intros v _.
    destruct (lt mx v); (eapply s_weaken; [apply IH; lia|]; intros a Ha; cbv beta in Ha; lia).
  Qed.

  Lemma argmax_spec r off n : 0 <= off -> 1 <= n -> off + n <= zlen r ->
    spec Q (argmax lt r off n) (fun a => 0 <= fst a < n).
  Proof.
    intros H1 H2 H3. unfold argmax. eapply s_bind; [apply s_rdF; lia|]. intros v _.
    eapply s_weaken; [apply argmax_loop_spec; lia|]. cbv beta. intros a Ha. lia.
  Qed.

  Lemma argmax_weighted_loop_spec r wi n : forall i arg mx xw w, 0 <= i -> i + Z.of_nat n <= zlen r -> 0 <= arg < i ->
    spec Q (argmax_weighted_loop add mul lt n r wi i arg mx xw w) (fun a => 0 <= fst a < i + Z.of_nat n).
  Proof.
    induction n as [|n IH]; intros i arg mx xw w H2 H3 H4; cbn [argmax_weighted_loop]; [apply s_ret; cbn [fst]; lia|].
    eapply s_bind; [apply s_rdF; lia|]. intros v _.
    destruct (lt xw (mul v w)); (eapply s_weaken; [apply IH; lia|]; intros a Ha; cbv beta in Ha; lia).
  Qed.

  Lemma argmax_weighted_spec r n wi : 1 <= n -> n <= zlen r ->
    spec Q (argmax_weighted add mul lt ofz r n wi) (fun a => 0 <= fst a < n).
  Proof.
    intros H2 H3. unfold argmax_weighted. eapply s_bind; [apply s_rdF; lia|]. intros v _.
    eapply s_weaken; [apply argmax_weighted_loop_spec; lia|]. cbv beta. intros a Ha. lia.
  Qed.

  Lemma tap_spec r p j h k : 0 <= p + j < zlen r -> 0 <= k < zlen h -> spec Q (tap mul lit r p j h k) (fun _ => True).
  Proof.
    intros H1 H2. unfold tap. eapply s_bind; [apply s_rdF; exact H1|]. intros a _.
    eapply s_bind; [apply s_rdF; exact H2|]. intros b _. apply s_ret. trivial.
  Qed.

  Lemma interpolate_corr_spec r p d : -3 <= d <= 3 -> 4 <= p -> p + 4 < zlen r ->
    spec Q (interpolate_corr zero add mul lit r p d) (fun _ => True).
  Proof.
    intros Hd H1 H2. unfold interpolate_corr.
    eapply (s_bind Q _ _ (fun h => zlen h = 8)).
    { apply s_rd; [|repeat constructor]. change (zlen h4) with 4. pose proof (Z.rem_bound_pos (4 + d) 4 ltac:(lia) ltac:(lia)). lia. }
    intros h Hh.
    eapply s_bind.
    { destruct (Z.ltb_spec d 0); [apply tap_spec; lia|]. destruct (Z.ltb_spec 0 d); [apply tap_spec; lia|apply s_ret; trivial]. }
    intros y _.
    set (o := if d <? 0 then 1 else 0). assert (Ho : 0 <= o <= 1) by (unfold o; destruct (d <? 0); lia). clearbody o.
    cbv zeta. repeat (eapply s_bind; [apply tap_spec; lia|]; intros ? _). apply s_ret. trivial.
  Qed.

  Lemma norm_corr_spec x px p1 n rm : wide_ok Q x -> 0 <= n <= 128 -> 0 <= px -> px + n <= zlen x -> 0 <= p1 -> p1 + n <= zlen x ->
    spec Q (norm_corr zero mul div sqrt le ofz x px p1 n rm) (fun _ => True).
  Proof.
    intros Hx Hn H1 H2 H3 H4. unfold norm_corr. destruct (le rm zero); [apply s_ret; trivial|].
    eapply s_bind; [apply dot_spec; assumption|]. intros a _. eapply s_bind; [apply dot_spec; assumption|]. intros b _.
    apply s_ret. trivial.
  Qed.

  Lemma detect_pitch_spec tc x px n : wide_ok Q x -> 0 <= n <= 128 -> 114 <= px -> px + n <= zlen x -> 0 <= tc <= 97 ->
    spec Q (detect_pitch zero add mul div sqrt lt le ofz lit tc x px n)
      (fun r => let '(_, t, tc') := r in 17 <= t <= 114 /\ 0 <= tc' <= 97).
  Proof.
    intros Hx Hn H1 H2 Htc. unfold detect_pitch. cbv zeta.
    eapply s_bind; [apply (correlate_spec x x n Hx Hx Hn); lia|]. intros r Hr. cbv beta in Hr.
    change (Z.of_nat (Z.to_nat 98)) with 98 in Hr.
    eapply s_bind; [apply argmax_weighted_spec; lia|]. intros [t1 rm1] T1. cbv beta in T1. cbn [fst] in T1.
    eapply s_bind; [apply argmax_spec; lia|]. intros [t2 rm2] T2. cbn [fst] in T2.
    eapply s_bind; [apply norm_corr_spec; try assumption; lia|]. intros nc1 _.
    eapply s_bind; [apply norm_corr_spec; try assumption; lia|]. intros nc2 _.
    apply s_ret. destruct (le nc2 _); lia.
  Qed.

  Lemma refine_loop_spec r p e : 4 <= p -> p + 4 < zlen r -> 32 <= e <= 228 -> forall n i f dm,
    1 <= i -> i + Z.of_nat n <= 4 -> found e f ->
    spec Q (refine_loop zero add mul lt lit n r p e i f dm) (found e).
  Proof.
    intros Hp Hr He. induction n as [|n IH]; intros i f dm H1 H2 Hf; cbn [refine_loop]; [apply s_ret; exact Hf|].
    destruct ((127 <=? e) && (negb (Z.land i 1 =? 0) || (157 <=? e))) eqn:Ec.
    { apply IH; try assumption; lia. }
    assert (Hi : forall s, s = i \/ s = - i /\ 32 < e -> found e s).
    { assert (Hodd : Z.land i 1 = i mod 2) by (change 1 with (Z.ones 1); rewrite Z.land_ones by lia; reflexivity).
      rewrite Hodd in Ec.
      assert (K : e < 127 \/ (i mod 2 = 0 /\ e < 157)).
      { destruct (Z.leb_spec 127 e); [right|left; lia]. cbn [andb] in Ec. apply orb_false_iff in Ec as [E1 E2].
        apply negb_false_iff, Z.eqb_eq in E1. apply Z.leb_gt in E2. lia. }
      intros s Hs. unfold found. clear - K Hs H1 H2 He.
      assert (s = i \/ s = - i) by lia. repeat split; try lia.
      intros. destruct K as [K|[K _]]; [lia|]. destruct H as [->| ->]; [exact K|].
      rewrite Z.mod_opp_l_z; lia. }
    eapply s_bind; [apply interpolate_corr_spec; lia|]. intros d _.
    assert (Hf1 : found e (fst (if lt dm d then (i, d) else (f, dm)))) by (destruct (lt dm d); cbn [fst]; auto).
    destruct (if lt dm d then (i, d) else (f, dm)) as [f1 dm1]. cbn [fst] in Hf1.
    destruct (Z.ltb_spec 32 e).
    - eapply s_bind; [apply interpolate_corr_spec; lia|]. intros d2 _.
      assert (Hf2 : found e (fst (if lt dm1 d2 then (- i, d2) else (f1, dm1)))) by (destruct (lt dm1 d2); cbn [fst]; auto).
      destruct (if lt dm1 d2 then (- i, d2) else (f1, dm1)) as [f2 dm2]. cbn [fst] in Hf2. apply IH; try assumption; lia.
    - apply IH; try assumption; lia.
  Qed.

  Lemma refine_pitch_spec x px n tc : wide_ok Q x -> 0 <= n <= 128 -> 232 <= px -> px + n <= zlen x -> 17 <= tc <= 114 ->
    spec Q (refine_pitch zero add mul lt ofz lit x px n tc) (fun r => exists e f, found e f /\ r = pitch_out e f).
  Proof.
    intros Hx Hn H1 H2 Htc. unfold refine_pitch. cbv zeta.
    set (r0 := Z.max 32 (2 * tc - 4)). set (nr := Z.min 228 (2 * tc + 4) - r0 + 1).
    assert (Hr0 : 32 <= r0 <= 224 /\ 1 <= nr <= 9 /\ r0 + nr <= 229) by (unfold nr, r0; lia). clearbody r0 nr.
    eapply s_bind; [apply s_assert, Z.leb_le; lia|]. intros _ _.
    eapply s_bind; [apply (correlate_spec x x n Hx Hx Hn); lia|]. intros r Hr. cbv beta in Hr.
    rewrite Z2Nat.id in Hr by lia.
    eapply s_bind; [apply argmax_spec; lia|]. intros [m rm] Hm. cbn [fst] in *.
    eapply s_bind; [apply interpolate_corr_spec; lia|]. intros dm _.
    eapply s_bind; [apply refine_loop_spec; try lia; unfold found; repeat split; intros; lia|].
    intros f Hf. apply s_ret. eauto.
  Qed.

  (** Invariant of the analysis. *)
  Record ana_ok (st : @analysis F) : Prop := {
    ao_12 : zlen (n_x12k8 st) = 384; ao_12m : mem_ok Q (n_x12k8 st);
    ao_6 : zlen (n_x6k4 st) = 178; ao_6m : mem_ok Q (n_x6k4 st);
    ao_hp : hp_state_ok Q (n_hp st); ao_tc : 0 <= n_tc st <= 97 }.

  Lemma shift_down_spec l n : mem_ok Q l -> 0 <= n <= zlen l ->
    spec Q (shift_down l n) (fun r => zlen r = zlen l /\ mem_ok Q r).
  Proof.
    intros [M1 M2] Hn. unfold shift_down. eapply s_bind; [apply s_assert, andb_true_iff; split; apply Z.leb_le; lia|]. intros _ _.
    apply s_ret. split.
    - unfold zlen in *. rewrite app_length, !skipn_length. lia.
    - assert (S : forall (P : Z -> Prop) k, Forall P l -> Forall P (skipn k l)).
      { intros P k H. apply Forall_forall. intros v Hv. rewrite Forall_forall in H. apply H.
        rewrite <- (firstn_skipn k l). apply in_or_app. right. exact Hv. }
      split; [apply Forall_app; split; apply S, M1|]. intros q. apply Forall_app; split; apply S, M2, q.
  Qed.

  Lemma pitch_bounds e f : found e f -> 128 <= fst (pitch_out e f) <= 912.
  Proof.
    intros (H1 & H2 & H3 & H4 & H5). unfold pitch_out. cbn [fst]. destruct (Z.ltb_spec f 0); cbn [b2z]; [|].
    - specialize (H3 H). lia.
    - destruct (Z.lt_ge_cases e 157); [lia|]. rewrite (H5 H0). lia.
  Qed.

  Lemma ltpf_analyse_spec dt sr st x px d0 :
    0 <= dt < 4 -> 0 <= sr < 7 -> ana_ok st -> Forall s16 x -> (Q -> Forall (amp (amp_limit sr)) x) ->
    c_nt sr <= px -> px + c_ns dt sr <= zlen x ->
    spec Q (ltpf_analyse zero add sub mul div sqrt lt le ofz lit dt sr st x px d0)
      (fun r => let '(present, st', d) := r in
         ana_ok st' /\
         (l_active d = 0 \/ l_active d = 1 /\ present = true /\ sr < 5) /\ n_active st' = (l_active d =? 1) /\
         (present = true -> exists e f, found e f /\ (n_pitch st', l_pitch d) = pitch_out e f) /\
         (present = false -> n_pitch st' = 0 /\ l_pitch d = l_pitch d0)).
  Proof.
    intros Hdt Hsr [A1 A2 A3 A4 A5 A6] Hx HA H1 H2. unfold ltpf_analyse. cbv zeta.
    eapply s_bind; [apply shift_down_spec; [exact A2|lia]|]. intros x12 [L12 M12].
    eapply s_bind; [apply resample_12k8_spec; try assumption; lia|]. intros [y12 hp] (L & M & Hhp). cbn [fst snd] in *.
    assert (L' : zlen y12 = 384) by congruence. clear x12 L12 M12 L.
    assert (Hn6 : shr ((1 + dt) * 32) 1 = (1 + dt) * 16) by (unfold shr; change (2 ^ 1) with 2; rewrite <- (Z.div_mul ((1 + dt) * 16) 2) by lia; f_equal; lia).
    rewrite Hn6. clear Hn6.
    eapply s_bind; [apply shift_down_spec; [exact A4|lia]|]. intros x6 [L6 M6].
    set (p12 := 384 - (1 + dt) * 32 - (if dt =? DT_7M5 then 44 else 24)).
    assert (Hp12 : (dt = 2 /\ p12 = 244) \/ (dt <> 2 /\ p12 = 384 - (1 + dt) * 32 - 24)).
    { unfold p12, DT_7M5. destruct (Z.eqb_spec dt 2); [subst; left; auto|right; auto]. }
    clearbody p12.
    eapply s_bind; [apply resample_6k4_spec; try assumption; lia|]. intros y6 [L6' M6'].
    assert (L6'' : zlen y6 = 178) by congruence. clear x6 L6 M6 L6'.
    set (g := if dt =? DT_2M5 then _ else _).
    assert (Hg : exists q12 q6 n12 n6, g = (q12, q6, n12, n6) /\ 232 <= q12 /\ q12 + n12 < 384 /\ 114 <= q6 /\ q6 + n6 <= 178 /\
      0 <= n12 <= 128 /\ n12 mod 4 = 0 /\ 0 <= n6 <= 128).
    { unfold g, DT_2M5. assert (E : dt = 0 \/ dt = 1 \/ dt = 2 \/ dt = 3) by lia.
      destruct E as [->|[->|[->| ->]]]; cbn [Z.eqb]; eexists _, _, _, _; (split; [reflexivity|]); repeat split; lia. }
    clearbody g. destruct Hg as (q12 & q6 & n12 & n6 & -> & G1 & G2 & G3 & G4 & G5 & G6 & G7).
    eapply s_bind; [apply detect_pitch_spec; [apply mem_wide, M6'|lia..]|]. intros [[present tc] tc'] [T1 T2].
    eapply (s_bind Q _ _ (fun r => let '(pitch, idx, _) := r in
       (present = true -> exists e f, found e f /\ (pitch, idx) = pitch_out e f) /\
       (present = false -> pitch = 0 /\ idx = l_pitch d0))).
    { destruct present.
      - eapply s_bind; [apply refine_pitch_spec; [apply mem_wide, M|lia..]|]. intros [pitch idx] (e & f & Hf & E).
        assert (Hpi : 128 <= pitch <= 912) by (pose proof (pitch_bounds e f Hf) as P; rewrite <- E in P; exact P).
        eapply s_bind; [apply interpolate_spec; try assumption; lia|]. intros u [Lu Wu].
        assert (Hs : 32 <= shr pitch 2 <= 228) by (unfold shr; Z.div_mod_to_equations; lia).
        assert (Hl : 0 <= Z.land pitch 3 < 4) by (change 3 with (Z.ones 2); rewrite Z.land_ones by lia; apply Z.mod_pos_bound; lia).
        eapply s_bind; [apply interpolate_spec; try assumption; lia|]. intros v [Lv Wv].
        eapply s_bind; [apply dot_spec; try assumption; lia|]. intros a _.
        eapply s_bind; [apply dot_spec; try assumption; lia|]. intros b _.
        eapply s_bind; [apply dot_spec; try assumption; lia|]. intros c _.
        apply s_ret. split; [intros _; eauto|discriminate].
      - apply s_ret. split; [discriminate|auto]. }
    intros [[pitch idx] nc] [P1 P2]. apply s_ret. cbn [n_active n_pitch l_active l_pitch].
    set (act := if n_active st then _ else _).
    split; [constructor; cbn [n_x12k8 n_x6k4 n_hp n_tc]; try assumption; lia|].
    split; [|split; [destruct act; reflexivity|split; assumption]].
    destruct act eqn:Ea; [right|left; reflexivity]. split; [reflexivity|]. unfold act in Ea.
    assert (K : negb (is_hr sr) && present = true) by (destruct (n_active st); apply andb_prop in Ea as [Ea _]; exact Ea).
    apply andb_prop in K as [K1 K2]. split; [exact K2|]. unfold is_hr in K1. revert K1. clear. 
    destruct (Z.leb_spec SRATE_48K_HR sr); [discriminate|]. unfold SRATE_48K_HR in *. lia.
  Qed.
End floats.
