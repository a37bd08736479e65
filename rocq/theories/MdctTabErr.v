(** * Distance of the tables of the code to the exact roots of the unity *)
From Coq Require Import Reals ZArith List Bool Lia Lra ZifyBool.
From Flocq Require Import Core.Core IEEE754.BinarySingleNaN.
From Verif Require Import Base BaseProofs FloatLaws F32Model F32Proofs SpecEncFloat ConfigModel MdctModel MdctProofs MdctFft MdctSpec MdctMath MdctExact MdctStream MdctTwiddles MdctWindows MdctFloat ErrNorm ErrF32 MdctErr MdctRoots.
Import ListNotations.
Local Open Scope R_scope.

(** ** Exact values of binary32 literals *)
Definition exactz (z : Z) : bool := (z mod 2 ^ Z.max 0 (Z.log2 (Z.abs z) - 23) =? 0)%Z.
Lemma dy_exactz z k : exactz z = true -> (Z.abs z <= 2 ^ 100)%Z -> (0 <= k <= 100)%Z -> fin (f32_dy z k) /\ val (f32_dy z k) = IZR z * p2 (- k).
Proof.
  intros H Hz Hk. unfold exactz in H. apply Z.eqb_eq in H. set (s := Z.max 0 (Z.log2 (Z.abs z) - 23)) in *.
  assert (L : (Z.log2 (Z.abs z) <= 100)%Z) by (change 100%Z with (Z.log2 (2 ^ 100)); apply Z.log2_le_mono; exact Hz).
  assert (Hs : (0 <= s <= 77)%Z) by (unfold s; lia). assert (P0 : (0 < 2 ^ s)%Z) by (apply Z.pow_pos_nonneg; lia).
  set (m := (z / 2 ^ s)%Z). assert (E : z = (m * 2 ^ s)%Z) by (unfold m; pose proof (Z.div_mod z (2 ^ s)); lia).
  assert (Hm : (Z.abs m <= 2 ^ 24)%Z).
  { destruct (Z.eq_dec z 0) as [Z0|N]; [unfold m; rewrite Z0, Z.div_0_l by lia; discriminate|].
    pose proof (Z.log2_spec (Z.abs z) ltac:(lia)) as (_ & B). assert (B' : (Z.abs z < 2 ^ (24 + s))%Z) by (eapply Z.lt_le_trans; [exact B|apply Z.pow_le_mono_r; unfold s; lia]).
    rewrite Z.pow_add_r in B' by lia. rewrite E, Z.abs_mul, (Z.abs_eq (2 ^ s)) in B' by lia. apply Z.lt_le_incl. apply (Z.mul_lt_mono_pos_r (2 ^ s)); assumption. }
  assert (V : IZR z * p2 (- k) = IZR m * p2 (- (k - s))).
  { rewrite E, mult_IZR. replace (- (k - s))%Z with (s + - k)%Z by ring. rewrite bpow_plus. rewrite <- (IZR_Zpower radix2 s) by lia. change (radix_val radix2) with 2%Z. ring. }
  assert (F : fmt (IZR m * p2 (- (k - s)))) by (apply fmt_Zp; lia). assert (R : rnd32 (IZR z * p2 (- k)) = IZR z * p2 (- k)) by (rewrite V; apply round_generic; [apply valid_rnd_N|exact F]).
  destruct (dy_val z k) as (A & B).
  - rewrite R, V, Rabs_mult, (Rabs_pos_eq (p2 (- (k - s)))), <- abs_IZR by apply bpow_ge_0. apply kok_lt. unfold kok. lia.
  - rewrite R in B. auto.
Qed.

(** ** Walk along a table *)
Section Walk.
Context {A : Type}.
Variable t : az -> A -> bool.
Fixpoint walk (cur step : az) (l : list A) : bool := match l with [] => true | x :: l => t cur x && walk (mula cur step) step l end.
Lemma walk_ok cur step l a0 d k dft : neara cur a0 -> neara step d -> walk cur step l = true -> (0 <= k < zlen l)%Z -> exists a, neara a (a0 + IZR k * d) /\ t a (znth l k dft) = true.
Proof.
  intros Hc Hs. revert cur a0 k Hc. induction l as [|x l IH]; intros cur a0 k Hc W Hk; [unfold zlen in Hk; cbn in Hk; lia|].
  cbn [walk] in W. apply andb_prop in W. destruct W as (W & W'). destruct (Z.eq_dec k 0) as [->|N].
  - exists cur. rewrite Rmult_0_l, Rplus_0_r. auto.
  - destruct (IH (mula cur step) (a0 + d) (k - 1)%Z (mula_near _ _ _ _ Hc Hs) W') as (a & Ha & Ht); [unfold zlen in *; cbn [length] in Hk; lia|].
    exists a. split.
    + replace (a0 + IZR k * d) with (a0 + d + IZR (k - 1) * d) by (rewrite minus_IZR; ring). exact Ha.
    + replace (znth (x :: l) k dft) with (znth l (k - 1) dft); [exact Ht|]. unfold znth. destruct (k <? 0)%Z eqn:E1, (k - 1 <? 0)%Z eqn:E2; try lia. replace (Z.to_nat k) with (S (Z.to_nat (k - 1))) by lia. reflexivity.
Qed.
End Walk.

Definition one : az := ((QZ, 0), 0)%Z.
Lemma one_near : neara one 0.
Proof.
  split; [cbn; lia|]. unfold one, zc, ei, csub, md, sq. cbn [fst snd]. fold Q. rewrite cos_0, sin_0. pose proof Qpos. replace (Q / Q) with 1 by (field; lra). replace (0 / Q) with 0 by (field; lra).
  replace ((1 - 1) * (1 - 1) + (0 - 0) * (0 - 0)) with 0 by ring. rewrite sqrt_0. lra.
Qed.

(** ** One entry *)
Definition tol : Z := (11 * 2 ^ 56 / 20)%Z.
Definition part_ok (tl z x e : Z) : bool := exactz x && (Z.abs x <=? 2 ^ 100)%Z && (Z.abs (x - z * 2 ^ 20) + e * 2 ^ 20 <=? tl)%Z.
Definition tw_ok (a : az) (c : Z * Z) : bool := part_ok tol (fst (fst a)) (fst c) (snd a) && part_ok tol (- snd (fst a)) (snd c) (snd a).

Lemma p2_80 : p2 (- (80)) = / IZR (2 ^ 80). Proof. rewrite bpow_opp. reflexivity. Qed.
Lemma Q_80 : Q * IZR (2 ^ 20) = IZR (2 ^ 80). Proof. unfold Q, QZ. rewrite <- mult_IZR. reflexivity. Qed.
Lemma part_close tl z x e r : part_ok tl z x e = true -> Rabs (IZR z / Q - r) <= IZR e / Q -> fin (f32_dy x 80) /\ Rabs (val (f32_dy x 80) - r) <= IZR tl / IZR (2 ^ 80).
Proof.
  intros H N. unfold part_ok in H. apply andb_prop in H. destruct H as (H & H3). apply andb_prop in H. destruct H as (H1 & H2). apply Z.leb_le in H2, H3.
  destruct (dy_exactz x 80 H1 H2 ltac:(lia)) as (F & V). split; [exact F|]. rewrite V, p2_80. pose proof Qpos as P. assert (P8 : 0 < IZR (2 ^ 80)) by (apply IZR_lt; reflexivity). assert (P2 : 0 < IZR (2 ^ 20)) by (apply IZR_lt; reflexivity).
  replace (IZR x * / IZR (2 ^ 80) - r) with (IZR (x - z * 2 ^ 20) / IZR (2 ^ 80) + (IZR z / Q - r)) by (rewrite minus_IZR, mult_IZR, <- Q_80; field; lra).
  eapply Rle_trans; [apply Rabs_triang|]. apply Rle_trans with (IZR (Z.abs (x - z * 2 ^ 20)) / IZR (2 ^ 80) + IZR e / Q).
  - apply Rplus_le_compat; [|exact N]. unfold Rdiv. rewrite Rabs_mult, (Rabs_pos_eq (/ _)), <- abs_IZR by (left; apply Rinv_0_lt_compat, P8). lra.
  - apply IZR_le in H3. rewrite plus_IZR, mult_IZR in H3. replace (IZR e / Q) with (IZR e * IZR (2 ^ 20) / IZR (2 ^ 80)) by (rewrite <- Q_80; field; lra). unfold Rdiv. rewrite <- Rmult_plus_distr_r. apply Rmult_le_compat_r; [left; apply Rinv_0_lt_compat, P8|exact H3].
Qed.
Lemma ru_80 : ru = IZR (2 ^ 56) / IZR (2 ^ 80).
Proof. unfold ru. change (p2 (-24)) with (p2 (Z.opp 24)). rewrite bpow_opp. change (2 ^ 80)%Z with (2 ^ 56 * 2 ^ 24)%Z. rewrite mult_IZR. replace (p2 24) with (IZR (2 ^ 24)) by reflexivity. assert (0 < IZR (2 ^ 56)) by (apply IZR_lt; reflexivity). assert (0 < IZR (2 ^ 24)) by (apply IZR_lt; reflexivity). field. split; lra. Qed.
Lemma tol_ru : IZR tol / IZR (2 ^ 80) <= 11 / 20 * ru.
Proof. rewrite ru_80. unfold Rdiv. rewrite <- !Rmult_assoc. apply Rmult_le_compat_r; [left; apply Rinv_0_lt_compat, IZR_lt; reflexivity|]. unfold tol. cbn. lra. Qed.
Lemma near_parts a th : neara a th -> Rabs (IZR (fst (fst a)) / Q - cos th) <= IZR (snd a) / Q /\ Rabs (IZR (snd (fst a)) / Q - sin th) <= IZR (snd a) / Q.
Proof. intros (_ & N). pose proof (md_comp (csub (zc (fst a)) (ei th))) as (A & B). cbn [csub zc ei fst snd] in A, B. lra. Qed.
Lemma cos_abs t : Rabs (cos t) <= 1. Proof. pose proof (COS_bound t). apply Rabs_le. lra. Qed.
Lemma sin_abs t : Rabs (sin t) <= 1. Proof. pose proof (SIN_bound t). apply Rabs_le. lra. Qed.
Lemma tw_close a c th : neara a th -> tw_ok a c = true -> ctab 1 (11 / 20) (conv2 c80 c) (cos th, - sin th).
Proof.
  intros N H. apply andb_prop in H. destruct H as (H1 & H2). destruct (near_parts a th N) as (A & B). pose proof tol_ru as T.
  destruct (part_close _ _ _ _ _ H1 A) as (F1 & V1).
  destruct (part_close _ _ _ _ (- sin th) H2) as (F2 & V2). { rewrite opp_IZR. replace (- IZR (snd (fst a)) / Q - - sin th) with (- (IZR (snd (fst a)) / Q - sin th)) by (unfold Rdiv; ring). rewrite Rabs_Ropp. exact B. }
  split; cbn [conv2 fst snd]; (split; [assumption|split; [rewrite ?Rabs_Ropp; first [apply cos_abs|apply sin_abs]|lra]]).
Qed.

(** ** The tables *)
Definition stepa (n : Z) : az := powa master (Z.to_pos (order / n)).
Lemma step_near n : (0 < n)%Z -> (order mod n = 0)%Z -> neara (stepa n) (2 * PI / IZR n).
Proof.
  intros Hn Hm. unfold stepa. pose proof (Z.div_mod order n ltac:(lia)) as D. rewrite Hm, Z.add_0_r in D. assert (0 < order / n)%Z by (assert (0 < n * (order / n))%Z by (rewrite <- D; reflexivity); nia).
  replace (2 * PI / IZR n) with (IZR (Zpos (Z.to_pos (order / n))) * theta); [apply powa_near, master_near|].
  rewrite Z2Pos.id by assumption. unfold theta. rewrite D at 2. rewrite mult_IZR. field. split; apply IZR_nz; lia.
Qed.
Definition check3 (t : @bf3_twiddles Z) : bool :=
  let n := (3 * t_n3 t)%Z in (0 <? n)%Z && (order mod n =? 0)%Z && walk (fun a c => tw_ok a (fst c) && tw_ok (mula a a) (snd c)) one (stepa n) (t_t3 t).
Definition check2 (t : @bf2_twiddles Z) : bool :=
  let n := (2 * t_n2 t)%Z in (0 <? n)%Z && (order mod n =? 0)%Z && walk tw_ok one (stepa n) (t_t2 t).
Lemma check3_all : forallb check3 tab_bf3 = true. Proof. vm_compute. reflexivity. Qed.
Lemma check2_all : forallb (forallb check2) tab_bf2 = true. Proof. vm_compute. reflexivity. Qed.

Lemma check3_ok t k : check3 t = true -> (0 <= k < zlen (t_t3 t))%Z ->
  ctab 1 (11 / 20) (fst (znth (t_t3 (conv_3 c80 t)) k (d2 f0))) (root (3 * t_n3 t) k) /\ ctab 1 (11 / 20) (snd (znth (t_t3 (conv_3 c80 t)) k (d2 f0))) (root (3 * t_n3 t) (2 * k)).
Proof.
  intros H Hk. unfold check3 in H. cbv zeta in H. apply andb_prop in H. destruct H as (H & W). apply andb_prop in H. destruct H as (H1 & H2). apply Z.ltb_lt in H1. apply Z.eqb_eq in H2.
  destruct (walk_ok _ _ _ _ _ _ k ((0, 0), (0, 0))%Z one_near (step_near _ H1 H2) W Hk) as (a & Na & Ta). apply andb_prop in Ta. destruct Ta as (T1 & T2).
  assert (E : znth (t_t3 (conv_3 c80 t)) k (d2 f0) = (conv2 c80 (fst (znth (t_t3 t) k ((0, 0), (0, 0))%Z)), conv2 c80 (snd (znth (t_t3 t) k ((0, 0), (0, 0))%Z)))).
  { cbn [conv_3 t_t3]. unfold znth. destruct (k <? 0)%Z eqn:E; [lia|]. rewrite (nth_indep _ (d2 f0) ((fun c => (conv2 c80 (fst c), conv2 c80 (snd c))) ((0, 0), (0, 0))%Z)) by (rewrite map_length; apply Nat2Z.inj_lt; rewrite Z2Nat.id by lia; apply Hk). exact (map_nth (fun c => (conv2 c80 (fst c), conv2 c80 (snd c))) (t_t3 t) ((0, 0), (0, 0))%Z (Z.to_nat k)). }
  rewrite E. cbn [fst snd]. rewrite Rplus_0_l in Na. split.
  - unfold root. replace (2 * PI * IZR k / IZR (3 * t_n3 t)) with (IZR k * (2 * PI / IZR (3 * t_n3 t))) by (unfold Rdiv; ring). apply (tw_close a); assumption.
  - unfold root. replace (2 * PI * IZR (2 * k) / IZR (3 * t_n3 t)) with (IZR k * (2 * PI / IZR (3 * t_n3 t)) + IZR k * (2 * PI / IZR (3 * t_n3 t))) by (rewrite (mult_IZR 2 k); unfold Rdiv; ring). apply (tw_close (mula a a)); [apply mula_near; assumption|assumption].
Qed.
Lemma check2_ok t k : check2 t = true -> (0 <= k < zlen (t_t2 t))%Z -> ctab 1 (11 / 20) (znth (t_t2 (conv_2 c80 t)) k (d1 f0)) (root (2 * t_n2 t) k).
Proof.
  intros H Hk. unfold check2 in H. cbv zeta in H. apply andb_prop in H. destruct H as (H & W). apply andb_prop in H. destruct H as (H1 & H2). apply Z.ltb_lt in H1. apply Z.eqb_eq in H2.
  destruct (walk_ok _ _ _ _ _ _ k (0, 0)%Z one_near (step_near _ H1 H2) W Hk) as (a & Na & Ta).
  assert (E : znth (t_t2 (conv_2 c80 t)) k (d1 f0) = conv2 c80 (znth (t_t2 t) k (0, 0)%Z)).
  { cbn [conv_2 t_t2]. unfold znth. destruct (k <? 0)%Z eqn:E; [lia|]. rewrite (nth_indep _ (d1 f0) (conv2 c80 (0, 0)%Z)) by (rewrite map_length; apply Nat2Z.inj_lt; rewrite Z2Nat.id by lia; apply Hk). exact (map_nth (conv2 c80) (t_t2 t) (0, 0)%Z (Z.to_nat k)). }
  rewrite E. rewrite Rplus_0_l in Na. unfold root. replace (2 * PI * IZR k / IZR (2 * t_n2 t)) with (IZR k * (2 * PI / IZR (2 * t_n2 t))) by (unfold Rdiv; ring). apply (tw_close a); assumption.
Qed.

(** The constants of the DFT of size 5. *)
Definition below (z e num : Z) : bool := (100 * (Z.abs z + e) <=? num * QZ)%Z.
Definition check5 : bool :=
  let a := stepa 5 in let b := mula a a in
  part_ok tol (fst (fst a)) (k_cos1 tab_5) (snd a) && part_ok tol (fst (fst b)) (k_cos2 tab_5) (snd b) && part_ok tol (- snd (fst a)) (k_sin1 tab_5) (snd a) && part_ok tol (- snd (fst b)) (k_sin2 tab_5) (snd b) &&
  below (fst (fst a)) (snd a) 31 && below (fst (fst b)) (snd b) 81 && below (- snd (fst a)) (snd a) 96 && below (- snd (fst b)) (snd b) 59.
Lemma check5_ok : check5 = true. Proof. vm_compute. reflexivity. Qed.
Lemma below_ok z e num r : below z e num = true -> Rabs (IZR z / Q - r) <= IZR e / Q -> Rabs r <= IZR num / 100.
Proof.
  intros H N. apply Z.leb_le, IZR_le in H. rewrite !mult_IZR, plus_IZR, abs_IZR in H. fold Q in H. pose proof Qpos as P.
  replace r with (IZR z / Q - (IZR z / Q - r)) by ring. eapply Rle_trans; [apply Rabs_triang|]. rewrite Rabs_Ropp. unfold Rdiv at 1. rewrite Rabs_mult, (Rabs_pos_eq (/ Q)) by (left; apply Rinv_0_lt_compat, P).
  apply Rle_trans with (Rabs (IZR z) * / Q + IZR e / Q); [lra|]. apply Rmult_le_reg_r with (100 * Q); [lra|]. replace ((Rabs (IZR z) * / Q + IZR e / Q) * (100 * Q)) with (100 * (Rabs (IZR z) + IZR e)) by (field; lra).
  replace (IZR num / 100 * (100 * Q)) with (IZR num * Q) by (field; lra). exact H.
Qed.
Lemma tab_5_near : tab5 (11 / 20) (ft_5 (code_fft c80)) exact5.
Proof.
  pose proof check5_ok as H. unfold check5 in H. cbv zeta in H. set (a := stepa 5) in *. set (b := mula a a) in *.
  assert (Na : neara a (2 * PI / 5)) by (apply (step_near 5); [lia|reflexivity]). assert (Nb : neara b (2 * PI * 2 / 5)) by (replace (2 * PI * 2 / 5) with (2 * PI / 5 + 2 * PI / 5) by field; apply mula_near; exact Na). clearbody a b.
  apply andb_prop in H as (H & H8). apply andb_prop in H as (H & H7). apply andb_prop in H as (H & H6). apply andb_prop in H as (H & H5). apply andb_prop in H as (H & H4). apply andb_prop in H as (H & H3). apply andb_prop in H as (H1 & H2).
  destruct (near_parts a _ Na) as (A1 & A2). destruct (near_parts b _ Nb) as (B1 & B2).
  assert (O : forall z th e, Rabs (IZR z / Q - sin th) <= IZR e / Q -> Rabs (IZR (- z) / Q - - sin th) <= IZR e / Q).
  { intros z th e B. rewrite opp_IZR. replace (- IZR z / Q - - sin th) with (- (IZR z / Q - sin th)) by (unfold Rdiv; ring). rewrite Rabs_Ropp. exact B. }
  apply O in A2, B2. pose proof tol_ru as T. cbn [code_fft ft_5 conv_5 exact5]. unfold tab5. cbn [k_cos1 k_cos2 k_sin1 k_sin2].
  split; [|split; [|split]].
  - destruct (part_close _ _ _ _ _ H1 A1) as (F & V). split; [exact F|]. split; [exact (below_ok _ _ _ _ H5 A1)|exact (Rle_trans _ _ _ V T)].
  - destruct (part_close _ _ _ _ _ H2 B1) as (F & V). split; [exact F|]. split; [exact (below_ok _ _ _ _ H6 B1)|exact (Rle_trans _ _ _ V T)].
  - destruct (part_close _ _ _ _ _ H3 A2) as (F & V). split; [exact F|]. split; [exact (below_ok _ _ _ _ H7 A2)|exact (Rle_trans _ _ _ V T)].
  - destruct (part_close _ _ _ _ _ H4 B2) as (F & V). split; [exact F|]. split; [exact (below_ok _ _ _ _ H8 B2)|exact (Rle_trans _ _ _ V T)].
Qed.

Lemma code_near_fft a b : shape_fft (code_fft c80) a b -> near_fft (code_fft c80) a b.
Proof.
  intros (S3 & S2). split; [exact tab_5_near|]. split.
  - intros j tw Hj E k Hk. destruct (S3 j Hj) as (tw' & E' & N & L). rewrite E in E'. injection E' as <-. cbn [code_fft ft_bf3] in E. apply rdt_map_inv in E. destruct E as (t & E & ->). apply rdt_In in E.
    pose proof check3_all as C. rewrite forallb_forall in C. specialize (C t E). cbn [conv_3 t_n3] in N. rewrite <- N. apply check3_ok; [exact C|]. cbn [conv_3 t_t3] in L. rewrite zlen_map in L. replace (zlen (t_t3 t)) with (3 * (5 * 3 ^ j))%Z by (symmetry; exact L). exact Hk.
  - intros j row tw Hj Er E k Hk. destruct (S2 j Hj) as (row' & tw' & Er' & E' & N & L). rewrite Er in Er'. injection Er' as <-. rewrite E in E'. injection E' as <-. cbn [code_fft ft_bf2] in Er. apply rdt_map_inv in Er. destruct Er as (rw & Er & ->). apply rdt_map_inv in E. destruct E as (t & E & ->). apply rdt_In in Er, E.
    pose proof check2_all as C. rewrite forallb_forall in C. specialize (C rw Er). rewrite forallb_forall in C. specialize (C t E). cbn [conv_2 t_n2] in N. rewrite <- N. apply check2_ok; [exact C|]. cbn [conv_2 t_t2] in L. rewrite zlen_map in L. replace (zlen (t_t2 t)) with (5 * 3 ^ a * 2 ^ j)%Z by (symmetry; exact L). exact Hk.
Qed.

(** ** Rotations *)
Definition amp (ns : Z) : R := sqrt (sqrt (4 / IZR (2 * ns))).
Definition near_rot (rot : @mdct_rot f32) (ns : Z) : Prop := forall k, (0 <= k < ns / 2)%Z ->
  ctab (amp ns) (13 / 10 * amp ns) (znth (r_w rot) k (d1 f0)) (amp ns * cos (2 * PI * (IZR k + 1 / 8) / IZR (2 * ns)), amp ns * sin (2 * PI * (IZR k + 1 / 8) / IZR (2 * ns))).
(** Integer fourth root: [(2 / ns)^(1/4)] in units of [2^-60]. *)
Definition ampz (ns : Z) : Z := Z.sqrt (Z.sqrt (2 * QZ ^ 4 / ns)).
Definition amp_ok (ns : Z) : bool := let c := ampz ns in (0 <? c)%Z && (c ^ 4 * ns <=? 2 * QZ ^ 4)%Z && (2 * QZ ^ 4 <=? (c + 1) ^ 4 * ns)%Z && (c <=? QZ)%Z.
Definition rpart_ok (c z x e : Z) : bool := exactz x && (Z.abs x <=? 2 ^ 100)%Z && (Z.abs (x - c * z / 2 ^ 40) + 1 + (e + 1) * 2 ^ 20 <=? 13 * c / 160)%Z.
Definition rot_ok (c : Z) (a : az) (w : Z * Z) : bool := rpart_ok c (fst (fst a)) (fst w) (snd a) && rpart_ok c (snd (fst a)) (snd w) (snd a).
Definition checkr (r : @mdct_rot Z) : bool :=
  let ns := (2 * r_n4 r)%Z in (0 <? ns)%Z && (order mod (16 * ns) =? 0)%Z && (order mod (2 * ns) =? 0)%Z && amp_ok ns && walk (rot_ok (ampz ns)) (stepa (16 * ns)) (stepa (2 * ns)) (r_w r).
Lemma checkr_40 : checkr mdct_rot_40 = true. Proof. vm_compute. reflexivity. Qed.
Lemma checkr_80 : checkr mdct_rot_80 = true. Proof. vm_compute. reflexivity. Qed.
Lemma checkr_120 : checkr mdct_rot_120 = true. Proof. vm_compute. reflexivity. Qed.
Lemma checkr_160 : checkr mdct_rot_160 = true. Proof. vm_compute. reflexivity. Qed.
Lemma checkr_240 : checkr mdct_rot_240 = true. Proof. vm_compute. reflexivity. Qed.
Lemma checkr_320 : checkr mdct_rot_320 = true. Proof. vm_compute. reflexivity. Qed.
Lemma checkr_360 : checkr mdct_rot_360 = true. Proof. vm_compute. reflexivity. Qed.
Lemma checkr_480 : checkr mdct_rot_480 = true. Proof. vm_compute. reflexivity. Qed.
Lemma checkr_640 : checkr mdct_rot_640 = true. Proof. vm_compute. reflexivity. Qed.
Lemma checkr_720 : checkr mdct_rot_720 = true. Proof. vm_compute. reflexivity. Qed.
Lemma checkr_960 : checkr mdct_rot_960 = true. Proof. vm_compute. reflexivity. Qed.
Lemma checkr_1920 : checkr mdct_rot_1920 = true. Proof. vm_compute. reflexivity. Qed.
Lemma checkr_all : forallb (forallb checkr) tab_rot = true.
Proof. unfold tab_rot. cbn [forallb]. rewrite ?checkr_40, ?checkr_80, ?checkr_120, ?checkr_160, ?checkr_240, ?checkr_320, ?checkr_360, ?checkr_480, ?checkr_640, ?checkr_720, ?checkr_960, ?checkr_1920. reflexivity. Qed.

Lemma pow4_le x y : 0 <= x -> 0 <= y -> x ^ 4 <= y ^ 4 -> x <= y.
Proof. intros Hx Hy H. destruct (Rle_or_lt x y) as [L|L]; [exact L|]. exfalso. assert (A : y * y < x * x) by (apply Rmult_le_0_lt_compat; lra). assert (0 <= y * y) by (apply Rmult_le_pos; lra). assert (B : (y * y) * (y * y) < (x * x) * (x * x)) by (apply Rmult_le_0_lt_compat; lra). replace (x ^ 4) with ((x * x) * (x * x)) in H by ring. replace (y ^ 4) with ((y * y) * (y * y)) in H by ring. lra. Qed.
Lemma amp_pow ns : (0 < ns)%Z -> 0 < amp ns /\ amp ns ^ 4 = 2 / IZR ns.
Proof.
  intros H. assert (P : 0 < IZR ns) by (apply IZR_lt, H). assert (E : 4 / IZR (2 * ns) = 2 / IZR ns) by (rewrite mult_IZR; field; lra). unfold amp. rewrite E. assert (P' : 0 < 2 / IZR ns) by (apply Rmult_lt_0_compat; [lra|apply Rinv_0_lt_compat, P]).
  assert (S : 0 < sqrt (2 / IZR ns)) by (apply sqrt_lt_R0, P'). split; [apply sqrt_lt_R0, S|]. set (s := sqrt (2 / IZR ns)) in *. replace (sqrt s ^ 4) with ((sqrt s * sqrt s) * (sqrt s * sqrt s)) by ring. rewrite sqrt_sqrt by lra. unfold s. apply sqrt_sqrt. lra.
Qed.
Lemma ampz_ok ns : (0 < ns)%Z -> amp_ok ns = true -> 0 < IZR (ampz ns) / Q <= amp ns /\ amp ns <= (IZR (ampz ns) + 1) / Q /\ IZR (ampz ns) / Q <= 1.
Proof.
  intros Hn H. unfold amp_ok in H. cbv zeta in H. set (c := ampz ns) in *. clearbody c. apply andb_prop in H as (H & H4). apply andb_prop in H as (H & H3). apply andb_prop in H as (H1 & H2).
  apply Z.ltb_lt, IZR_lt in H1. apply Z.leb_le, IZR_le in H2, H3, H4. destruct (amp_pow ns Hn) as (A0 & A4). pose proof Qpos as P. assert (Pn : 0 < IZR ns) by (apply IZR_lt, Hn).
  change 4%Z with (Z.of_nat 4) in H2, H3. rewrite !mult_IZR, <- !pow_IZR in H2, H3. rewrite plus_IZR in H3. fold Q in H2, H3, H4.
  assert (P4 : 0 < Q ^ 4) by (apply pow_lt, P).
  assert (D : forall x, (x / Q) ^ 4 = x ^ 4 / Q ^ 4) by (intros x; field; lra).
  split; [split|split].
  - apply Rmult_lt_0_compat; [exact H1|apply Rinv_0_lt_compat, P].
  - apply pow4_le; [apply div_nonneg; lra|lra|]. rewrite D, A4. apply Rmult_le_reg_r with (Q ^ 4 * IZR ns); [apply Rmult_lt_0_compat; assumption|]. replace (IZR c ^ 4 / Q ^ 4 * (Q ^ 4 * IZR ns)) with (IZR c ^ 4 * IZR ns) by (field; lra). replace (2 / IZR ns * (Q ^ 4 * IZR ns)) with (2 * Q ^ 4) by (field; lra). exact H2.
  - apply pow4_le; [lra|apply div_nonneg; lra|]. rewrite D, A4. apply Rmult_le_reg_r with (Q ^ 4 * IZR ns); [apply Rmult_lt_0_compat; assumption|]. replace ((IZR c + 1) ^ 4 / Q ^ 4 * (Q ^ 4 * IZR ns)) with ((IZR c + 1) ^ 4 * IZR ns) by (field; lra). replace (2 / IZR ns * (Q ^ 4 * IZR ns)) with (2 * Q ^ 4) by (field; lra). exact H3.
  - apply Rmult_le_reg_r with Q; [exact P|]. field_simplify; lra.
Qed.
Lemma rpart_close ns z x e r : (0 < ns)%Z -> amp_ok ns = true -> rpart_ok (ampz ns) z x e = true -> Rabs (IZR z / Q - r) <= IZR e / Q -> Rabs r <= 1 ->
  fin (f32_dy x 80) /\ Rabs (val (f32_dy x 80) - amp ns * r) <= 13 / 10 * amp ns * ru.
Proof.
  intros Hn HA H N Hr. destruct (ampz_ok ns Hn HA) as ((C0 & C1) & C2 & C3). set (c := ampz ns) in *. clearbody c. unfold rpart_ok in H. apply andb_prop in H. destruct H as (H & H3). apply andb_prop in H. destruct H as (H1 & H2). apply Z.leb_le in H2, H3.
  destruct (dy_exactz x 80 H1 H2 ltac:(lia)) as (F & V). split; [exact F|]. rewrite V, p2_80. pose proof Qpos as P. assert (P8 : 0 < IZR (2 ^ 80)) by (apply IZR_lt; reflexivity). assert (P2 : 0 < IZR (2 ^ 20)) by (apply IZR_lt; reflexivity). assert (P4 : 0 < IZR (2 ^ 40)) by (apply IZR_lt; reflexivity).
  pose proof (Z.div_mod (c * z) (2 ^ 40) ltac:(discriminate)) as D. pose proof (Z.mod_pos_bound (c * z) (2 ^ 40) ltac:(reflexivity)) as B. set (p := (c * z / 2 ^ 40)%Z) in *. set (m := ((c * z) mod 2 ^ 40)%Z) in *. clearbody p m.
  assert (E : IZR c / Q * (IZR z / Q) = IZR p / IZR (2 ^ 80) + IZR m / IZR (2 ^ 40) / IZR (2 ^ 80)).
  { apply (f_equal IZR) in D. rewrite plus_IZR, !mult_IZR in D. replace (IZR c / Q * (IZR z / Q)) with (IZR c * IZR z / (Q * Q)) by (field; lra). rewrite D. replace (Q * Q) with (IZR (2 ^ 40) * IZR (2 ^ 80)) by (unfold Q, QZ; rewrite <- !mult_IZR; reflexivity). field. lra. }
  assert (M : 0 <= IZR m / IZR (2 ^ 40) <= 1).
  { assert (0 <= IZR m <= IZR (2 ^ 40)) by (split; apply IZR_le; lia). split; [apply div_nonneg; lra|]. apply Rmult_le_reg_r with (IZR (2 ^ 40)); [exact P4|]. replace (IZR m / IZR (2 ^ 40) * IZR (2 ^ 40)) with (IZR m) by (field; lra). lra. }
  replace (IZR x * / IZR (2 ^ 80) - amp ns * r) with (IZR (x - p) / IZR (2 ^ 80) + (- (IZR m / IZR (2 ^ 40)) / IZR (2 ^ 80)) + (IZR c / Q * (IZR z / Q - r) + (IZR c / Q - amp ns) * r)).
  2:{ rewrite minus_IZR. transitivity ((IZR x - IZR p) / IZR (2 ^ 80) - IZR m / IZR (2 ^ 40) / IZR (2 ^ 80) + (IZR c / Q * (IZR z / Q)) - amp ns * r); [field; lra|]. rewrite E. field. lra. }
  assert (T1 : Rabs (IZR (x - p) / IZR (2 ^ 80)) = IZR (Z.abs (x - p)) / IZR (2 ^ 80)) by (unfold Rdiv; rewrite Rabs_mult, (Rabs_pos_eq (/ _)), <- abs_IZR by (left; apply Rinv_0_lt_compat, P8); reflexivity).
  assert (T2 : Rabs (- (IZR m / IZR (2 ^ 40)) / IZR (2 ^ 80)) <= 1 / IZR (2 ^ 80)) by (unfold Rdiv at 1; rewrite Rabs_mult, Rabs_Ropp, (Rabs_pos_eq (/ IZR (2 ^ 80))), Rabs_pos_eq by first [lra|left; apply Rinv_0_lt_compat, P8]; apply Rmult_le_compat_r; [left; apply Rinv_0_lt_compat, P8|lra]).
  assert (T3 : Rabs (IZR c / Q * (IZR z / Q - r)) <= IZR e / Q) by (rewrite Rabs_mult, (Rabs_pos_eq (IZR c / Q)) by lra; pose proof (Rabs_pos (IZR z / Q - r)); apply Rle_trans with (1 * (IZR e / Q)); [apply Rmult_le_compat; lra|lra]).
  assert (T4 : Rabs ((IZR c / Q - amp ns) * r) <= 1 / Q).
  { rewrite Rabs_mult. apply Rle_trans with (1 / Q * 1); [|lra]. apply Rmult_le_compat; try apply Rabs_pos; [|exact Hr]. replace ((IZR c + 1) / Q) with (IZR c / Q + 1 / Q) in C2 by (field; lra). apply Rabs_le. split; [lra|]. assert (0 <= 1 / Q) by (apply div_nonneg; lra). lra. }
  eapply Rle_trans; [eapply Rle_trans; [apply Rabs_triang|apply Rplus_le_compat; [apply Rabs_triang|apply Rabs_triang]]|]. rewrite T1.
  apply Rle_trans with (IZR (13 * c / 160) / IZR (2 ^ 80)).
  - apply Rle_trans with (IZR (Z.abs (x - p)) / IZR (2 ^ 80) + 1 / IZR (2 ^ 80) + (IZR e / Q + 1 / Q)); [lra|]. apply IZR_le in H3. rewrite !plus_IZR, mult_IZR, plus_IZR in H3.
    replace (IZR (Z.abs (x - p)) / IZR (2 ^ 80) + 1 / IZR (2 ^ 80) + (IZR e / Q + 1 / Q)) with ((IZR (Z.abs (x - p)) + 1 + (IZR e + 1) * IZR (2 ^ 20)) / IZR (2 ^ 80)) by (rewrite <- Q_80; field; lra).
    apply Rmult_le_compat_r; [left; apply Rinv_0_lt_compat, P8|exact H3].
  - apply Rle_trans with (13 / 10 * (IZR c / Q) * ru); [|apply Rmult_le_compat_r; [pose proof ru_b; lra|lra]]. rewrite ru_80.
    pose proof (Z.mul_div_le (13 * c) 160 ltac:(lia)) as G. apply IZR_le in G. rewrite !mult_IZR in G. unfold Rdiv. rewrite <- !Rmult_assoc. apply Rmult_le_compat_r; [left; apply Rinv_0_lt_compat, P8|].
    assert (X : 13 * / 10 * IZR c * / Q * IZR (2 ^ 56) = 13 * IZR c / 160) by (replace Q with (IZR (2 ^ 56) * 16) by (unfold Q, QZ; rewrite <- mult_IZR; reflexivity); assert (0 < IZR (2 ^ 56)) by (apply IZR_lt; reflexivity); field; lra).
    rewrite X. lra.
Qed.

Lemma code_near_rot dt sr : has_transform dt sr -> near_rot (code_rot c80 dt sr) (c_ns dt sr).
Proof.
  intros Hc k Hk. destruct (code_sizes c80 dt sr Hc) as (S1 & S2 & _). destruct (cfg_ok dt sr Hc) as (Q' & HQ & _ & _ & _ & Ens & _).
  unfold code_rot in *. cbv zeta in *. cbn [r_n4 r_w] in *. rewrite zlen_map in S2. set (r := znth (znth tab_rot dt []) sr (mkRot 0 [])) in *.
  assert (I : checkr r = true).
  { pose proof checkr_all as A. rewrite forallb_forall in A. assert (Ed : (0 <= dt < zlen tab_rot)%Z) by (destruct Hc as (Hd & _); unfold zlen; cbn; lia). specialize (A _ (znth_In_ tab_rot dt [] Ed)). rewrite forallb_forall in A. apply A. unfold r. apply znth_In_.
    destruct (Z.lt_ge_cases sr (zlen (znth tab_rot dt []))) as [L|L]; [destruct Hc as (_ & Hs & _); lia|]. exfalso.
    assert (E0 : r = mkRot 0 []). { unfold r. unfold znth at 1. destruct (sr <? 0)%Z; [reflexivity|]. apply nth_overflow. unfold zlen in L. lia. }
    rewrite E0 in S1. cbn in S1. lia. }
  clearbody r. unfold checkr in I. cbv zeta in I. assert (En : (2 * r_n4 r = c_ns dt sr)%Z) by (transitivity (2 * (c_ns dt sr / 2))%Z; [f_equal; exact S1|rewrite Ens, (Z.mul_comm 2 (2 * Q')), Z.div_mul; lia]). rewrite En in I. set (ns := c_ns dt sr) in *. clearbody ns. clear Hc.
  apply andb_prop in I as (I & W). apply andb_prop in I as (I & HA). apply andb_prop in I as (I & M2). apply andb_prop in I as (H0 & M1). apply Z.ltb_lt in H0. apply Z.eqb_eq in M1, M2.
  assert (Hk' : (0 <= k < zlen (r_w r))%Z) by (replace (zlen (r_w r)) with (ns / 2)%Z by (symmetry; exact S2); exact Hk).
  destruct (walk_ok _ _ _ _ _ _ k (0, 0)%Z (step_near (16 * ns) ltac:(lia) M1) (step_near (2 * ns) ltac:(lia) M2) W Hk') as (a & Na & Ta).
  assert (E : znth (map (conv2 c80) (r_w r)) k (d1 f0) = conv2 c80 (znth (r_w r) k (0, 0)%Z)).
  { unfold znth. destruct (k <? 0)%Z eqn:E; [lia|]. rewrite (nth_indep _ (d1 f0) (conv2 c80 (0, 0)%Z)) by (rewrite map_length; apply Nat2Z.inj_lt; rewrite Z2Nat.id by lia; apply Hk'). exact (map_nth (conv2 c80) (r_w r) (0, 0)%Z (Z.to_nat k)). }
  match goal with |- ctab _ _ ?x _ => replace x with (conv2 c80 (znth (r_w r) k (0, 0)%Z)) by (symmetry; exact E) end. apply andb_prop in Ta. destruct Ta as (T1 & T2).
  replace (2 * PI / IZR (16 * ns) + IZR k * (2 * PI / IZR (2 * ns))) with (2 * PI * (IZR k + 1 / 8) / IZR (2 * ns)) in Na by (rewrite !mult_IZR; field; apply IZR_nz; lia).
  destruct (near_parts a _ Na) as (A & B). set (th := 2 * PI * (IZR k + 1 / 8) / IZR (2 * ns)) in *. destruct (amp_pow ns H0) as (A0 & _).
  destruct (rpart_close ns _ _ _ _ H0 HA T1 A (cos_abs _)) as (F1 & V1). destruct (rpart_close ns _ _ _ _ H0 HA T2 B (sin_abs _)) as (F2 & V2).
  pose proof (cos_abs th) as Ca. pose proof (sin_abs th) as Sa.
  split; cbn [conv2 fst snd]; (split; [assumption|split; [rewrite Rabs_mult, (Rabs_pos_eq (amp ns)) by lra; apply Rle_trans with (amp ns * 1); [apply Rmult_le_compat_l; lra|lra]|assumption]]).
Qed.
