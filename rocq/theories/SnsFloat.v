(** * Scale factors: bounds, for any arithmetic whose operations do not exceed the exact bounds *)
From Coq Require Import ZArith List Bool Lia.
From Verif Require Import Base ConfigModel SideModel SideSpec ShapeTables FloatOps FloatLaws LoopProofs TnsProofs BandModel BandProofs SnsModel SnsProofs SnsMain.
Import ListNotations.
Local Open Scope Z_scope.

Lemma some_inj {A} (a b : A) : Some a = Some b -> a = b.
Proof. congruence. Qed.
Lemma pair_inj {A B} (a a' : A) (b b' : B) : Some (a, b) = Some (a', b') -> a = a' /\ b = b'.
Proof. split; congruence. Qed.

Section Bounds.
Context {F : Type} (fl : fops F) (bnd : Z -> Z -> F -> Prop) (LW : blaws fl bnd).
Local Notation fz := (f_z fl).
Let pb (e : Z) (x : F) : Prop := bnd 1 e x.
Ltac eok := unfold eok; lia.
Lemma pb_le e e' x : pb e x -> e <= e' -> pb e' x.
Proof. intros H L. unfold pb. replace e' with (e + (e' - e)) by lia. apply (b_weak _ _ LW 1 e); auto; try lia. Qed.
Lemma bnd_pb k e n x : 0 <= n -> 0 <= k <= 2 ^ n -> bnd k e x -> pb (e + n) x.
Proof. intros Hn Hk H. apply (b_weak _ _ LW k e); auto; lia. Qed.

Definition all (e : Z) (l : list F) : Prop := forall i v, rd l i = Some v -> pb e v.

Lemma all_app e l v : all e l -> pb e v -> all e (l ++ [v]).
Proof. intros H Hv i w Hw. rewrite rd_snoc in Hw. destruct (i =? zlen l); [injection Hw as <-; exact Hv|exact (H i w Hw)]. Qed.
Lemma all_nil e : all e [].
Proof. intros i v Hv. pose proof (rd_range _ _ _ Hv). change (zlen (@nil F)) with 0 in H. lia. Qed.
Lemma all_le e e' l : all e l -> e <= e' -> all e' l.
Proof. intros H L i v Hv. eapply pb_le; [apply (H i v Hv)|exact L]. Qed.
Lemma all_wr e l i v l' : all e l -> pb e v -> wr l i v = Some l' -> all e l'.
Proof.
  intros H Hv Hw j w Hj. apply wr_inv in Hw as (B & ->).
  rewrite rd_upd in Hj by lia. destruct (i =? j); [injection Hj as <-; exact Hv|exact (H j w Hj)].
Qed.

Lemma bind_inv {A B} (o : option A) (f : A -> option B) r : bind o f = Some r -> exists v, o = Some v /\ f v = Some r.
Proof. destruct o; cbn [bind]; [eauto|discriminate]. Qed.
Ltac inv1 H v E := apply bind_inv in H as (v & E & H); cbv beta in H.
Ltac inv_bind H :=
  repeat (match type of H with
  | @bind F _ _ _ = Some _ => let E := fresh "E" in let v := fresh "f" in inv1 H v E
  | @bind (list F) _ _ _ = Some _ => let E := fresh "E" in let v := fresh "l" in inv1 H v E
  | @bind Z _ _ _ = Some _ => let E := fresh "E" in let v := fresh "z" in inv1 H v E
  | @bind _ _ _ _ = Some _ => let E := fresh "E" in let v := fresh "p" in inv1 H v E
  end).

Lemma add_le e x y a b : eok e -> pb a x -> pb b y -> a <= e -> b <= e -> pb (e + 1) (f_add fl x y).
Proof. intros K Hx Hy A B. apply (bnd_pb 2 e 1); try lia. apply (b_add _ _ LW 1 1); [unfold kok, eok in *; lia| |]; eapply pb_le; eauto. Qed.
Lemma sub_le e x y a b : eok e -> pb a x -> pb b y -> a <= e -> b <= e -> pb (e + 1) (f_sub fl x y).
Proof. intros K Hx Hy A B. apply (bnd_pb 2 e 1); try lia. apply (b_sub _ _ LW 1 1); [unfold kok, eok in *; lia| |]; eapply pb_le; eauto. Qed.
Lemma pb_mul e1 e2 x y : eok (e1 + e2) -> pb e1 x -> pb e2 y -> pb (e1 + e2) (f_mul fl x y).
Proof. intros K Hx Hy. apply (b_mul _ _ LW 1 1 e1 e2); auto. unfold eok, kok in *. lia. Qed.
Lemma pb_dy m s n : eok (n - s) -> 0 <= n -> Z.abs m <= 2 ^ n -> pb (n - s) (f_dy fl m s).
Proof. apply (b_dy _ _ LW). Qed.
Lemma mul_c a x m s n : eok (a + (n - s)) -> eok (n - s) -> 0 <= n -> Z.abs m <= 2 ^ n -> pb a x -> pb (a + (n - s)) (f_mul fl x (f_dy fl m s)).
Proof. intros K K' Hn Hm Hx. apply (pb_mul a (n - s)); auto. apply pb_dy; auto. Qed.
Lemma div_c a x n : eok a -> 1 <= n <= 2 ^ 24 -> pb a x -> pb a (f_div fl x (fz n)).
Proof. intros K Hn Hx. apply (b_div _ _ LW); auto. unfold eok, kok in *. lia. Qed.

Lemma smooth_log_bnd sr e e' : 0 <= sr <= 6 -> smooth_log fl sr e = Some e' -> zlen e = 64 -> all 8 e'.
Proof.
  intros Hs H L. destruct (smooth_log_ok fl sr e Hs L) as (e2 & E2 & L2). rewrite H in E2. injection E2 as <-. unfold smooth_log in H. cbv zeta in H. inv_bind H. clear E.
  destruct p as (((a & b) & e1) & s). inv_bind H.
  match type of H with for_ 0 64 ?g ?st = Some ?res => pose proof (for_post (fun i (t : list F) => forall j v, j < i -> rd t j = Some v -> pb 8 v) g 0 64 st res ltac:(lia)) as Q end.
  intros j v Hj. refine (Q _ _ H j v _ Hj).
  - clear - LW. intros i t t' Hi I E. inv_bind E. apply wr_inv in E as (B & ->). intros j v Hj. rewrite rd_upd by lia. destruct (i =? j) eqn:C; [|apply I; lia].
    intros Hv0; apply some_inj in Hv0; subst v. apply (mul_c 9 _ 1 1 0); try eok; try lia. apply (b_log2 _ _ LW).
  - intros k w Hk Hw. apply rd_range in Hw. lia.
  - apply rd_range in Hj. lia.
Qed.

Lemma group6_bnd e a b c d f g v : all 8 e -> group6 fl e a b c d f g = Some v -> pb 13 v.
Proof.
  intros H E. unfold group6 in E. inv_bind E. apply some_inj in E; subst v.
  apply (add_le 12 _ _ 12 11); try eok; try lia.
  - apply (add_le 11 _ _ 9 11); try eok; try lia.
    + apply (div_c 9 _ 12); try eok; try lia. apply (mul_c 9 _ 1 0 0); try eok; try lia. apply (add_le 8 _ _ 8 8); try eok; try lia; eapply H; eassumption.
    + apply (div_c 11 _ 12); try eok; try lia. apply (pb_le 10); [|lia]. apply (mul_c 9 _ 2 0 1); try eok; try lia. apply (add_le 8 _ _ 8 8); try eok; try lia; eapply H; eassumption.
  - apply (div_c 11 _ 12); try eok; try lia. apply (mul_c 9 _ 3 0 2); try eok; try lia. apply (add_le 8 _ _ 8 8); try eok; try lia; eapply H; eassumption.
Qed.

Lemma group_bnd e scf s : all 8 e -> group_bands fl e = Some (scf, s) -> all 13 scf /\ pb 17 s.
Proof.
  intros H E. unfold group_bands in E. inv_bind E. destruct p as (scf0 & s0). inv_bind E. apply pair_inj in E as (<- & <-).
  match type of E1 with for_ 1 15 ?g ?st = Some ?res => pose proof (for_post (fun i (t : list F * F) => all 13 (fst t) /\ bnd i 13 (snd t)) g 1 15 st res ltac:(lia)) as Q end.
  destruct Q as (Q1 & Q2); [| |exact E1|].
  - intros i (l & s) t' Hi (I1 & I2) E. cbn [fst snd] in *. inv_bind E. apply some_inj in E; subst t'. cbn [fst snd]. apply group6_bnd in E3; [|exact H]. split; [apply all_app; auto|].
    apply (b_add _ _ LW); auto. unfold kok. lia.
  - cbn [fst snd]. apply group6_bnd in E0; [|exact H]. split; [apply (all_app 13 []); [apply all_nil|exact E0]|exact E0].
  - cbn [fst snd] in *. apply group6_bnd in E2; [|exact H]. split; [apply all_app; auto|].
    apply (bnd_pb 16 13 4); [lia|lia|]. apply (b_add _ _ LW 15 1 13); auto; unfold kok; lia.
Qed.

Lemma center_bnd a k scf s l : eok (a + 1) -> 0 <= a -> pb 0 k -> zlen scf = 16 -> all a scf -> pb a s -> center fl k scf s = Some l -> all (a + 1) l.
Proof.
  intros K Ha Hk Ls Hs Hsum E. unfold center in E.
  match type of E with for_ 0 16 ?g ?st = Some ?res => pose proof (for_post (fun i (t : list F) => zlen t = 16 /\ forall j v, rd t j = Some v -> if j <? i then pb (a + 1) v else pb a v) g 0 16 st res ltac:(lia)) as Q end.
  destruct Q as (Q1 & Q2); [| |exact E|].
  - clear - LW K Hk Hs Hsum Ha. intros i t t' Hi (I1 & I2) E. inv_bind E. apply wr_inv in E as (B & ->). rewrite upd_len. split; [exact I1|]. intros j v. rewrite rd_upd by lia. destruct (i =? j) eqn:C.
    + intros Hv0; apply some_inj in Hv0; subst v. destruct (j <? i + 1) eqn:D; [|lia]. apply (pb_mul 0 (a + 1) _ _ K); auto. 
      apply (sub_le a _ _ a a); try lia; [unfold eok in *; lia| |].
      * specialize (I2 i f E0). destruct (i <? i) eqn:D2; [lia|exact I2].
      * apply (div_c a _ 16); try (unfold eok in *; lia). rewrite <- (Z.add_0_r a). apply (mul_c a _ 1 0 0); try (unfold eok in *; lia). exact Hsum.
    + intros Hv. specialize (I2 j v Hv). destruct (j <? i) eqn:D1, (j <? i + 1) eqn:D2; auto; lia.
  - split; [exact Ls|]. intros j v Hv. pose proof (rd_range _ _ _ Hv). destruct (j <? 0) eqn:D; [lia|]. apply (Hs j v Hv).
  - intros j v Hv. specialize (Q2 j v Hv). pose proof (rd_range _ _ _ Hv). destruct (j <? 16) eqn:D; [exact Q2|lia].
Qed.

Lemma scale_cf_bnd dt sr nbytes : pb 0 (scale_cf fl dt sr nbytes).
Proof.
  unfold scale_cf. cbv zeta. assert (A : pb 0 (if is_hr sr then f_dy fl 5033165 23 else f_dy fl 7130317 23)) by (destruct (is_hr sr); apply (pb_dy _ 23 23); try eok; lia).
  destruct (_ && _); [|exact A]. apply (pb_mul 0 0); [eok|exact A|]. destruct (dt <? 3).
  - apply (pb_le (-2)); [apply (pb_dy 1 2 0); try eok; lia|lia].
  - apply (pb_le (-1)); [apply (pb_dy 11744051 25 24); try eok; lia|lia].
Qed.

Lemma b_add1 k e x y : kok (k + 1) e -> bnd k e x -> pb e y -> bnd (k + 1) e (f_add fl x y).
Proof. intros K Hx Hy. apply (b_add _ _ LW); auto. Qed.

Lemma mul1 k e x : kok k e -> bnd k e x -> bnd k e (f_mul fl x (fz 1)).
Proof.
  intros K H. replace k with (k * 1) by lia. replace e with (e + (0 - 0)) by lia. apply (b_mul _ _ LW); [|exact H|apply (b_dy _ _ LW); [eok|lia|lia]].
  unfold kok in *. lia.
Qed.

Lemma attack_bnd dt scf l : zlen scf = 16 -> all 18 scf -> attack fl dt scf = Some l -> all 29 l.
Proof.
  intros L H E. unfold attack in E. cbv zeta in E. inv_bind E. destruct p as (((scf2 & (((s1 & s2) & s3) & s4)) & sn) & sum). inv_bind E.
  pose proof (H 0 f E0) as B0. pose proof (H 1 f0 E1) as B1. pose proof (H 2 f1 E2) as B2. pose proof (H 3 f2 E3) as B3. clear E0 E1 E2 E3.
  assert (BS3 : bnd 3 18 (f_add fl (f_add fl f f0) f1)).
  { apply (b_add1 2); [unfold kok; lia| |exact B2]. apply (b_add1 1); [unfold kok; lia|exact B0|exact B1]. }
  assert (BS4 : bnd 4 18 (f_add fl (f_add fl (f_add fl f f0) f1) f2)) by (apply (b_add1 3); [unfold kok; lia|exact BS3|exact B3]).
  assert (P0 : pb 20 (f_div fl (f_mul fl (f_add fl (f_add fl f f0) f1) (fz 1)) (fz 3))).
  { apply (div_c 20 _ 3); [eok|lia|]. apply (bnd_pb 3 18 2); [lia|lia|]. apply mul1; [unfold kok; lia|exact BS3]. }
  assert (P1 : pb 20 (f_div fl (f_mul fl (f_add fl (f_add fl (f_add fl f f0) f1) f2) (fz 1)) (fz 4))).
  { apply (div_c 20 _ 4); [eok|lia|]. apply (bnd_pb 4 18 2); [lia|lia|]. apply mul1; [unfold kok; lia|exact BS4]. }
  assert (A1 : zlen l0 = 16 /\ all 20 l0).
  { split; [apply wr_inv in E4 as (_ & ->); rewrite upd_len; exact L|]. eapply all_wr; [|exact P0|exact E4]. eapply all_le; [exact H|lia]. }
  assert (A2 : zlen l1 = 16 /\ all 20 l1 /\ forall i v, 4 <= i -> rd l1 i = Some v -> pb 18 v).
  { destruct A1 as (A1 & A1'). spl; [apply wr_inv in E5 as (_ & ->); rewrite upd_len; exact A1|eapply all_wr; [exact A1'|exact P1|exact E5]|].
    apply wr_inv in E4 as (C4 & ->). apply wr_inv in E5 as (C5 & ->). intros i v Hi. rewrite !rd_upd by (rewrite ?upd_len; lia). destruct (1 =? i) eqn:D1; [lia|]. destruct (0 =? i) eqn:D0; [lia|]. apply H. }
  clear A1. destruct A2 as (L1 & A2 & A3).
  match type of E6 with for_ 2 14 ?g ?st = Some ?res => pose proof (for_post (fun i (t : list F * (F * F * F * F) * F * F) => let '(scf, (s1, s2, s3, s4), sn, sum) := t in
    zlen scf = 16 /\ all 24 scf /\ (forall j v, i + 2 <= j -> rd scf j = Some v -> pb 18 v) /\ (pb 18 s1 /\ pb 18 s2 /\ pb 18 s3 /\ pb 18 s4) /\ bnd (2 * i) 18 sn /\ bnd i 24 sum) g 2 14 st res ltac:(lia)) as Q end.
  destruct Q as (Q1 & Q2 & Q3 & (Q4 & _) & Q5 & Q6); [| |exact E6|].
  - clear - LW. intros i (((scf & (((s1 & s2) & s3) & s4)) & sn) & sum) t' Hi (I1 & I2 & I3 & (I4 & I5 & I6 & I7) & I8 & I9) E. inv_bind E. apply some_inj in E. subst t'. cbv beta iota.
    assert (Pf : pb 18 f) by (apply (I3 (i + 2)); [lia|exact E0]).
    assert (Ps : bnd (2 * i + 1) 18 (f_add fl sn f)) by (apply b_add1; [unfold kok; lia|exact I8|exact Pf]).
    assert (Pv : pb 24 (f_div fl (f_mul fl (f_add fl sn f) (fz 1)) (fz 5))).
    { apply (div_c 24 _ 5); [eok|lia|]. apply (bnd_pb (2 * i + 1) 18 6); [lia|lia|]. apply mul1; [unfold kok; lia|exact Ps]. }
    spl; auto.
    + apply wr_inv in E1 as (_ & ->). rewrite upd_len. exact I1.
    + eapply all_wr; eauto.
    + apply wr_inv in E1 as (C & ->). intros j v Hj. rewrite rd_upd by lia. destruct (i =? j) eqn:D; [lia|]. apply I3. lia.
    + replace (2 * (i + 1)) with (2 * i + 1 + 1) by lia. apply (b_sub _ _ LW); auto. unfold kok. lia.
    + apply b_add1; auto. unfold kok. lia.
  - spl; auto.
    + eapply all_le; [exact A2|lia].
    + apply (b_weak _ _ LW 2 20 2 4); try lia. apply (b_add1 1); [unfold kok; lia|exact P0|exact P1].
  - clear E4 E5 E6 A3 A2 P0 P1 BS3 BS4 B0 B1 B2 B3 H.
    assert (P14 : pb 24 (f_div fl (f_mul fl sn (fz 1)) (fz 4))).
    { apply (div_c 24 _ 4); [eok|lia|]. apply (bnd_pb (2 * 14) 18 6); [lia|lia|]. apply mul1; [unfold kok; lia|exact Q5]. }
    assert (P15 : pb 24 (f_div fl (f_mul fl (f_sub fl sn s1) (fz 1)) (fz 3))).
    { apply (div_c 24 _ 3); [eok|lia|]. apply (bnd_pb (2 * 14 + 1) 18 6); [lia|lia|]. apply mul1; [unfold kok; lia|]. apply (b_sub _ _ LW); [unfold kok; lia|exact Q5|exact Q4]. }
    change 29 with (28 + 1). eapply (center_bnd 28 _ l3); [eok|lia| | | | |exact E].
    + destruct (dt =? 2); [apply (pb_le (-1)); [apply (pb_dy 5033165 24 23); try eok; lia|lia]|apply (pb_le (-1)); [apply (pb_dy 1 1 0); try eok; lia|lia]].
    + apply wr_inv in E7 as (_ & ->). apply wr_inv in E8 as (_ & ->). rewrite !upd_len. exact Q1.
    + eapply all_wr; [|eapply pb_le; [exact P15|lia]|exact E8]. eapply all_wr; [|eapply pb_le; [exact P14|lia]|exact E7]. eapply all_le; [exact Q2|lia].
    + apply (bnd_pb 16 24 4); [lia|lia|]. apply (b_add _ _ LW 14 2); [unfold kok; lia|exact Q6|]. apply (b_add1 1); [unfold kok; lia|exact P14|exact P15].
Qed.

Lemma compute_bnd junk dt sr nbytes eb att scf : tns_cfg dt sr -> zlen eb = num_bands dt sr -> compute_scale_factors fl junk dt sr nbytes eb att = Some scf -> all 29 scf.
Proof.
  intros C L E. destruct (lim_ok dt sr C) as (Hn & _). unfold MAX_BANDS in Hn. unfold compute_scale_factors in E. inv_bind E. rename l into e, l0 into e2, p into r.
  destruct (pad_bands_ok junk (num_bands dt sr) eb Hn L) as (e' & E' & Le & _). rewrite E0 in E'. apply some_inj in E'. subst e'.
  assert (Hs : 0 <= sr <= 6) by (unfold tns_cfg in C; lia). pose proof (smooth_log_bnd sr e e2 Hs E1 Le) as B1.
  destruct (smooth_log_ok fl sr e Hs Le) as (e2' & E' & L2). rewrite E1 in E'. apply some_inj in E'. subst e2'.
  destruct (group_bands_ok fl e2 L2) as (s0 & s & E' & Ls). rewrite E2 in E'. apply some_inj in E'. subst r. cbn [fst snd] in *.
  destruct (group_bnd e2 s0 s B1 E2) as (B2 & B3).
  assert (B4 : all 18 l1) by (apply (center_bnd 17 (scale_cf fl dt sr nbytes) s0 s); [eok|lia|apply scale_cf_bnd|exact Ls|eapply all_le; [exact B2|lia]|exact B3|exact E3]).
  destruct (center_ok fl (scale_cf fl dt sr nbytes) s0 s Ls) as (l' & E' & Ll). rewrite E3 in E'. apply some_inj in E'. subst l'.
  destruct att; [eapply attack_bnd; [exact Ll|exact B4|exact E]|]. apply some_inj in E. subst scf. eapply all_le; [exact B4|lia].
Qed.

(** Entries of the codebooks and of the transform. *)
Definition cb_check (n : Z) (t : list (list Z)) : bool := forallb (fun r => forallb (fun v => Z.abs v <=? 2 ^ n) r) t.
Lemma cb_bnd n t i r j v : cb_check n t = true -> rd t i = Some r -> rd r j = Some v -> Z.abs v <= 2 ^ n.
Proof.
  intros H Hr Hv. unfold cb_check in H. rewrite forallb_forall in H. specialize (H r (rd_In _ _ _ Hr)). cbv beta in H. rewrite forallb_forall in H. specialize (H v (rd_In _ _ _ Hv)). cbv beta in H. lia.
Qed.
Lemma lfcb_small : cb_check 36 sns_lfcb = true. Proof. vm_compute. reflexivity. Qed.
Lemma hfcb_small : cb_check 36 sns_hfcb = true. Proof. vm_compute. reflexivity. Qed.
Lemma dct_small : cb_check 27 dct16_m = true. Proof. vm_compute. reflexivity. Qed.

Lemma residual_bnd scf lf hf lfcb hfcb r : all 29 scf -> rd sns_lfcb lf = Some lfcb -> rd sns_hfcb hf = Some hfcb -> residual fl scf lfcb hfcb = Some r -> all 30 r.
Proof.
  intros H El Eh E. unfold residual in E. inv_bind E. rename l into a.
  assert (A : all 30 a).
  { match type of E0 with for_ 0 8 ?g ?st = Some ?res => apply (for_post (fun i (t : list F) => all 30 t) g 0 8 st res) end; [lia| |apply all_nil|exact E0].
    intros j t t' Hj I E'. inv_bind E'. apply some_inj in E'. subst t'. apply all_app; [exact I|]. apply (sub_le 29 _ _ 29 4); try eok; try lia; [eapply H; eassumption|].
    apply (pb_dy z 32 36); [eok|lia|]. eapply cb_bnd; [exact lfcb_small|exact El|eassumption]. }
  match type of E with for_ 0 8 ?g ?st = Some ?res => apply (for_post (fun i (t : list F) => all 30 t) g 0 8 st res) end; [lia| |exact A|exact E].
  intros j t t' Hj I E'. inv_bind E'. apply some_inj in E'. subst t'. apply all_app; [exact I|]. apply (sub_le 29 _ _ 29 4); try eok; try lia; [eapply H; eassumption|].
  apply (pb_dy z 32 36); [eok|lia|]. eapply cb_bnd; [exact hfcb_small|exact Eh|eassumption].
Qed.

Lemma dct_bnd r x : all 30 r -> dct16_forward fl r = Some x -> all 34 x.
Proof.
  intros H E. unfold dct16_forward in E.
  match type of E with for_ 0 16 ?g ?st = Some ?res => apply (for_post (fun i (t : list F) => all 34 t) g 0 16 st res) end; [lia| |apply all_nil|exact E].
  intros i t t' Hi I E'. inv_bind E'. apply some_inj in E'. subst t'. apply all_app; [exact I|]. apply (bnd_pb 16 30 4); [lia|lia|].
  match type of E0 with for_ 0 16 ?g ?st = Some ?res => apply (for_post (fun i (t : F) => bnd i 30 t) g 0 16 st res) end; [lia| | |exact E0].
  - intros j v v' Hj J E1. inv_bind E1. apply some_inj in E1. subst v'. apply b_add1; [unfold kok; lia|exact J|]. apply (pb_le (30 + (27 - 28))); [|lia].
    apply mul_c; try eok; try lia; [eapply cb_bnd; [exact dct_small|eassumption|eassumption]|eapply H; eassumption].
  - apply (b_zero _ _ LW).
Qed.

Lemma magnitudes_bnd x xm sum : all 34 x -> magnitudes fl x = Some (xm, sum) -> all 34 xm /\ pb 38 sum.
Proof.
  intros H E. unfold magnitudes in E.
  match type of E with for_ 0 16 ?g ?st = Some ?res => pose proof (for_post (fun i (t : list F * F) => all 34 (fst t) /\ bnd i 34 (snd t)) g 0 16 st res ltac:(lia)) as Q end.
  destruct Q as (Q1 & Q2); [| |exact E|].
  - intros i (l & s) t' Hi (I1 & I2) E'. inv_bind E'. apply some_inj in E'. subst t'. cbn [fst snd] in *. assert (A : pb 34 (f_abs fl f)) by (apply (b_abs _ _ LW); eapply H; eassumption).
    split; [apply all_app; auto|]. apply b_add1; auto. unfold kok. lia.
  - split; [apply all_nil|apply (b_zero _ _ LW)].
  - cbn [fst snd] in *. split; [exact Q1|]. apply (bnd_pb 16 34 4); [lia|lia|exact Q2].
Qed.
End Bounds.

Lemma magnitudes_eq {F} (fl : fops F) x xm sum : zlen x = 16 -> magnitudes fl x = Some (xm, sum) ->
  zlen xm = 16 /\ xm = map (f_abs fl) x /\ sum = fold_left (f_add fl) xm (f_z fl 0).
Proof.
  intros L E. unfold magnitudes in E.
  match type of E with for_ 0 16 ?g ?st = Some ?res => pose proof (for_post (fun i (t : list F * F) => fst t = map (f_abs fl) (firstn (Z.to_nat i) x) /\ snd t = fold_left (f_add fl) (fst t) (f_z fl 0)) g 0 16 st res ltac:(lia)) as Q end.
  destruct Q as (Q1 & Q2); [| |exact E|].
  - intros i (l & s) t' Hi (I1 & I2) E'. apply bind_inv in E' as (v & Ev & E'). cbv beta in E'. apply some_inj in E'. subst t'. cbn [fst snd] in *.
    rewrite (firstn_snoc x i v Ev), map_app, I1. cbn [map]. split; [reflexivity|]. rewrite fold_left_app. cbn [fold_left]. rewrite <- I1, <- I2. reflexivity.
  - split; reflexivity.
  - cbn [fst snd] in *. rewrite firstn_all2 in Q1 by (unfold zlen in L; lia). split; [rewrite Q1; unfold zlen in *; rewrite map_length; exact L|]. auto.
Qed.
