(** * TNS: the analysis and the synthesis of a frame *)
From Coq Require Import ZArith List Bool Lia ZifyBool Ring.
From Verif Require Import Base BaseProofs ConfigModel SideModel SideSpec ShapeTables FloatOps LoopProofs TnsModel TnsProofs TnsFilter.
Import ListNotations.
Local Open Scope Z_scope.

Section Main.
Context {F : Type} (fl : fops F).
Local Notation zero := (f_z fl 0).

(** The coefficient for an index. *)
Definition rc_val (q : Z) : F :=
  let m := f_dy fl (znth tns_q_inv (Z.abs q) 0) 15 in if q <? 0 then f_opp fl m else m.

Lemma rd_znth (l : list Z) i v : rd l i = Some v -> znth l i 0 = v.
Proof. intros H. unfold rd in H. unfold znth. destruct (i <? 0) eqn:E; [discriminate|]. rewrite nth_error_nth with (x := v); auto. Qed.

Lemma unquantize_val q rc : Forall (fun c => -8 <= c <= 8) q -> zlen q <= zlen rc ->
  exists rc', unquantize_rc fl q (zlen q) rc = Some rc' /\ zlen rc' = zlen rc /\
    (forall i v, rd q i = Some v -> rd rc' i = Some (rc_val v)) /\ (forall i, zlen q <= i -> rd rc' i = rd rc i).
Proof.
  intros FA L. unfold unquantize_rc. match goal with |- context [for_ _ _ ?gg _] => set (g := gg) end.
  destruct (for_inv (fun i (s : list F) => zlen s = zlen rc /\ (forall j v, j < i -> rd q j = Some v -> rd s j = Some (rc_val v)) /\ (forall j, i <= j -> rd s j = rd rc j)) g 0 (zlen q) rc) as (s & S1 & L1 & H1 & H2).
  - unfold zlen; lia.
  - spl; auto. intros j v Hj Hr. apply rd_range in Hr. lia.
  - intros i s Hi (L1 & H1 & H2). unfold g. destruct (rd_ok q i ltac:(lia)) as (c & C). rewrite C. cbn [bind].
    rewrite Forall_forall in FA. pose proof (FA _ (rd_In _ _ _ C)).
    destruct (rd_ok tns_q_inv (Z.abs c)) as (v & V); [change (zlen tns_q_inv) with 9; lia|]. rewrite V. cbn [bind]. rewrite wr_ok by lia.
    eexists. split; [reflexivity|]. spl.
    + rewrite upd_len. exact L1.
    + intros j w Hj Hw. rewrite rd_upd by lia. destruct (i =? j) eqn:E.
      * assert (j = i) by lia. subst j. rewrite C in Hw. injection Hw as <-. unfold rc_val. rewrite (rd_znth _ _ _ V). reflexivity.
      * apply H1; [lia|exact Hw].
    + intros j Hj. rewrite rd_upd by lia. replace (i =? j) with false by lia. apply H2. lia.
  - exists s. spl; auto. intros i v Hv. apply (H1 i v); [|exact Hv]. apply rd_range in Hv. lia.
Qed.

(** The filters of the decoder. *)
Lemma synth_filters qs : Forall (fun q => Forall (fun c => -8 <= c <= 8) q /\ zlen q <= 8) qs ->
  exists fs, for_ 0 (zlen qs) (fun f fs => do q <- rd qs f; do rc <- unquantize_rc fl q (zlen q) (repeat zero 8); Some (fs ++ [(zlen q, rc)])) [] = Some fs /\
    Forall2 (fun q p => fst p = zlen q /\ zlen (snd p) = 8 /\ (forall i v, rd q i = Some v -> rd (snd p) i = Some (rc_val v)) /\
                        (forall i, zlen q <= i < 8 -> rd (snd p) i = Some zero)) qs fs.
Proof.
  intros FA. set (Rl := fun q (p : Z * list F) => fst p = zlen q /\ zlen (snd p) = 8 /\ (forall i v, rd q i = Some v -> rd (snd p) i = Some (rc_val v)) /\
                        (forall i, zlen q <= i < 8 -> rd (snd p) i = Some zero)).
  destruct (for_inv (fun i fs => Forall2 Rl (firstn (Z.to_nat i) qs) fs) (fun f fs => do q <- rd qs f; do rc <- unquantize_rc fl q (zlen q) (repeat zero 8); Some (fs ++ [(zlen q, rc)])) 0 (zlen qs) []) as (fs & E & H).
  - unfold zlen; lia.
  - constructor.
  - intros i fs Hi H. destruct (rd_ok qs i ltac:(lia)) as (q & Q). rewrite Q. cbn [bind]. rewrite Forall_forall in FA. destruct (FA _ (rd_In _ _ _ Q)) as [F1 F2].
    destruct (unquantize_val q (repeat zero 8) F1) as (rc & R1 & R2 & R3 & R4); [exact F2|]. rewrite R1. cbn [bind]. eexists. split; [reflexivity|].
    assert (E : firstn (Z.to_nat (i + 1)) qs = firstn (Z.to_nat i) qs ++ [q]).
    { replace (Z.to_nat (i + 1)) with (Datatypes.S (Z.to_nat i)) by lia. unfold rd in Q. destruct (i <? 0); [discriminate|]. revert Q. generalize (Z.to_nat i). clear.
      induction qs as [|a qs IH]; intros [|n] Q; try discriminate; cbn in *; [injection Q as <-; reflexivity|]. rewrite (IH n Q). reflexivity. }
    rewrite E. apply Forall2_app; [exact H|]. constructor; [|constructor]. unfold Rl. cbn [fst snd]. spl; auto.
    intros j Hj. rewrite R4 by lia. apply rd_repeat. unfold zlen in *. lia.
  - exists fs. split; [exact E|]. unfold zlen in H. rewrite Nat2Z.id, firstn_all in H. exact H.
Qed.

Lemma F2c {A B} (R : A -> B -> Prop) a l b m : Forall2 R (a :: l) (b :: m) -> R a b /\ Forall2 R l m.
Proof. intros H. inversion H. auto. Qed.

Lemma F2len {A B} (R : A -> B -> Prop) l m : Forall2 R l m -> length l = length m.
Proof. induction 1; cbn; auto. Qed.

(** The analysis. *)
Theorem analyze_ok junk dt bw nn nbytes x : tns_cfg dt bw -> tns_end dt bw <= zlen x ->
  exists d y, tns_analyze fl junk dt bw nn nbytes x = Some (d, y) /\ tns_ok dt bw nbytes d /\ Forall trimmed (t_filters d) /\ zlen y = zlen x /\
    (forall i, i < 3 * (1 + dt) \/ tns_end dt bw <= i -> rd y i = rd x i) /\
    (forall junk', tns_analyze fl junk' dt bw nn nbytes x = Some (d, y)) /\
    (exists fs, forward_filtering fl dt bw fs x = Some y /\ zlen fs = nfil dt bw /\
      Forall2 (fun q p => fst p = zlen q /\ zlen (snd p) = 8 /\ (forall i v, rd q i = Some v -> rd (snd p) i = Some (rc_val v))) (t_filters d) fs).
Proof.
  intros C L.
  assert (K : exists qs, zlen qs = nfil dt bw /\ Forall (fun q => zlen q <= tns_order dt /\ Forall (fun c => -8 <= c <= 8) q /\ trimmed q) qs /\
    forall j, exists ps, (do p0 <- tns_analyze_filter fl j dt bw nbytes nn x 0;
       (if Nat.eqb (tns_nfilters dt bw) 2 then do p1 <- tns_analyze_filter fl j dt bw nbytes nn x 1; Some [p0; p1] else Some [p0])) = Some ps /\ map fst ps = qs /\
       Forall2 (fun q p => zlen (snd p) = 8 /\ (forall i v, rd q i = Some v -> rd (snd p) i = Some (rc_val v))) qs ps).
  { assert (A : forall f, 0 <= f < nfil dt bw -> exists q, (zlen q <= tns_order dt /\ Forall (fun c => -8 <= c <= 8) q /\ trimmed q) /\
      forall j, exists rc, tns_analyze_filter fl j dt bw nbytes nn x f = Some (q, rc) /\ zlen rc = 8 /\ (forall i v, rd q i = Some v -> rd rc i = Some (rc_val v))).
    { intros f Hf. destruct (analyze_filter_ok fl junk junk dt bw nbytes nn x f C L Hf) as (q & rc1 & _ & E1 & _ & B1 & B2 & B3 & _). exists q. split; [auto|].
      intros j. destruct (analyze_filter_ok fl junk j dt bw nbytes nn x f C L Hf) as (q' & r1 & r2 & E1' & E2' & _). assert (q' = q) by congruence. subst q'.
      exists r2. split; [exact E2'|]. destruct (analyze_filter_ok fl j j dt bw nbytes nn x f C L Hf) as (q' & r1' & r2' & E3 & _ & _ & _ & _ & L3 & _ & r0 & U & L0).
      assert (q' = q /\ r1' = r2) as [-> ->] by (split; congruence). split; [exact L3|]. destruct (unquantize_val q r0 B2) as (rc' & U' & _ & V & _); [pose proof (order_cases dt); lia|].
      assert (rc' = r2) by congruence. subst rc'. exact V. }
    destruct (A 0) as (q0 & B0 & H0); [pose proof (nfil_cases dt bw); lia|]. unfold nfil in *. destruct (Nat.eqb (tns_nfilters dt bw) 2) eqn:N.
    - apply Nat.eqb_eq in N. destruct (A 1) as (q1 & B1 & H1); [rewrite N; lia|]. exists [q0; q1]. split; [rewrite N; reflexivity|]. split; [auto|].
      intros j. destruct (H0 j) as (rc0 & E0 & V0). destruct (H1 j) as (rc1 & E1 & V1). exists [(q0, rc0); (q1, rc1)]. rewrite E0. cbn [bind]. rewrite E1. cbn [bind]. auto.
    - apply Nat.eqb_neq in N. exists [q0]. split; [pose proof (nfil_cases dt bw); unfold nfil in *; change (zlen [q0]) with 1; lia|]. split; [auto|].
      intros j. destruct (H0 j) as (rc0 & E0 & V0). exists [(q0, rc0)]. rewrite E0. cbn [bind]. auto. }
  destruct K as (qs & Lq & Hq & Hj).
  assert (J : forall j, tns_analyze fl j dt bw nn nbytes x =
     (do ps <- (do p0 <- tns_analyze_filter fl j dt bw nbytes nn x 0; (if Nat.eqb (tns_nfilters dt bw) 2 then do p1 <- tns_analyze_filter fl j dt bw nbytes nn x 1; Some [p0; p1] else Some [p0]));
      do y <- forward_filtering fl dt bw (map (fun p => (zlen (fst p), snd p)) ps) x; Some (mkTns (resolve_lpc_weighting dt nbytes) (map fst ps), y))).
  { intros j. unfold tns_analyze. destruct (tns_analyze_filter fl j dt bw nbytes nn x 0); reflexivity. }
  pose proof (order_cases dt) as HO.
  assert (S2 : forall ps ps', map fst ps = qs -> map fst ps' = qs -> Forall2 (fun q p => zlen (snd p) = 8 /\ (forall i v, rd q i = Some v -> rd (snd p) i = Some (rc_val v))) qs ps ->
     Forall2 (fun q p => zlen (snd p) = 8 /\ (forall i v, rd q i = Some v -> rd (snd p) i = Some (rc_val v))) qs ps' ->
     Forall2 same_filter (map (fun p : list Z * list F => (zlen (fst p), snd p)) ps) (map (fun p : list Z * list F => (zlen (fst p), snd p)) ps')).
  { clear - Hq HO. induction Hq as [|q qs B Hq IH]; intros [|[a r] ps] [|[a' r'] ps'] M1 M2 H1 H2; try discriminate; [constructor|].
    cbn [map fst] in M1, M2. injection M1 as -> M1. injection M2 as -> M2. apply F2c in H1 as [[L1 V1] H1]. apply F2c in H2 as [[L2 V2] H2]. cbn [fst snd] in *. cbn [map]. constructor; [|auto].
    unfold same_filter. cbn [fst snd]. destruct B as (B1 & _). assert (0 <= zlen q) by (unfold zlen; lia). spl; try lia; try reflexivity. split; [lia|].
    intros i Hi. destruct (rd_ok q i ltac:(lia)) as (v & V). rewrite (V1 _ _ V), (V2 _ _ V). reflexivity. }
  destruct (Hj junk) as (ps & P1 & P2 & P3).
  assert (Lp : zlen (map (fun p : list Z * list F => (zlen (fst p), snd p)) ps) = nfil dt bw) by (rewrite <- Lq, <- P2; unfold zlen; rewrite !map_length; reflexivity).
  destruct (forward_filtering_ok fl dt bw _ _ x C L (S2 ps ps P2 P2 P3 P3) Lp) as (y & Y1 & _ & Y2 & Y3).
  exists (mkTns (resolve_lpc_weighting dt nbytes) qs), y. spl.
  - rewrite J, P1. cbn [bind]. rewrite Y1. cbn [bind]. rewrite P2. reflexivity.
  - unfold tns_ok. cbn [t_weighting t_filters]. spl.
    + reflexivity.
    + unfold nfil, tns_nfilters, zlen in Lq. change DT_5M with 1 in Lq. change SRATE_32K with 3 in Lq. destruct ((1 <=? dt) && (3 <=? bw)); lia.
    + eapply Forall_impl; [|exact Hq]. cbv beta. intros q (B1 & B2 & B3). split; assumption.
  - cbn [t_filters]. eapply Forall_impl; [|exact Hq]. cbv beta. tauto.
  - exact Y2.
  - exact Y3.
  - intros j. destruct (Hj j) as (ps' & Q1 & Q2 & Q3). destruct (forward_filtering_ok fl dt bw _ _ x C L (S2 ps ps' P2 Q2 P3 Q3) Lp) as (y' & Y1' & Y2' & _).
    rewrite J, Q1. cbn [bind]. rewrite Y2'. cbn [bind]. rewrite Q2. congruence.
  - eexists. split; [exact Y1|]. split; [exact Lp|]. cbn [t_filters]. clear - P2 P3. revert P2. induction P3 as [|q [a r] qs ps [H1 H2] H IH]; intros P2; [constructor|].
    cbn [map fst] in *. injection P2 as -> P2. constructor; [cbn [fst snd]; auto|auto].
Qed.
End Main.

(** ** Without filter *)
Section NoFilter.
Context {F : Type} (fl : fops F).

Lemma forward_none dt bw fs x : tns_cfg dt bw -> zlen fs = nfil dt bw -> Forall (fun p : Z * list F => fst p = 0) fs -> forward_filtering fl dt bw fs x = Some x.
Proof.
  intros C L H. unfold forward_filtering. fold (nfil dt bw). match goal with |- context [for_ 0 _ ?gg _] => set (g := gg) end.
  destruct (for_inv (fun _ (s : list F * list F) => snd s = x) g 0 (nfil dt bw) (repeat (f_z fl 0) 8, x)) as (s & E & H1).
  - pose proof (nfil_cases dt bw). lia.
  - reflexivity.
  - intros i [s y] Hi Hy. cbn [snd] in Hy. subst y. unfold g. destruct (rd_ok fs i ltac:(lia)) as ([o rc] & R). rewrite R. cbn [bind].
    rewrite Forall_forall in H. pose proof (H _ (rd_In _ _ _ R)) as H0. cbn [fst] in H0. subst o. cbn [Z.eqb]. eauto.
  - rewrite E. cbn [bind]. rewrite H1. reflexivity.
Qed.

(** The analysis without filter. *)
Lemma analyze_none junk dt bw nn nbytes x : tns_cfg dt bw -> tns_end dt bw <= zlen x ->
  (forall f, 0 <= f < nfil dt bw -> exists rc, tns_analyze_filter fl junk dt bw nbytes nn x f = Some ([], rc)) ->
  tns_analyze fl junk dt bw nn nbytes x = Some (mkTns (resolve_lpc_weighting dt nbytes) (repeat [] (tns_nfilters dt bw)), x).
Proof.
  intros C L H. destruct (analyze_ok fl junk dt bw nn nbytes x C L) as (d & y & E & (T1 & T2 & T3) & _).
  unfold tns_analyze in *. destruct (H 0) as (r0 & E0); [pose proof (nfil_cases dt bw); lia|]. rewrite E0 in *. cbn [bind] in *.
  unfold nfil in H. destruct (nfil_cases dt bw) as [N|N]; unfold nfil in N.
  - assert (LN : tns_nfilters dt bw = 1%nat) by lia. rewrite LN in *. cbn [Nat.eqb bind map fst snd] in *.
    rewrite forward_none; [cbn [bind]; reflexivity|exact C|unfold nfil; rewrite LN; reflexivity|repeat constructor].
  - assert (LN : tns_nfilters dt bw = 2%nat) by lia. rewrite LN in *. destruct (H 1) as (r1 & E1); [lia|]. rewrite E1 in *. cbn [Nat.eqb bind map fst snd] in *.
    rewrite forward_none; [cbn [bind]; reflexivity|exact C|unfold nfil; rewrite LN; reflexivity|repeat constructor].
Qed.

Theorem analyze_near_nyquist junk dt bw nbytes x : tns_cfg dt bw -> tns_end dt bw <= zlen x ->
  tns_analyze fl junk dt bw true nbytes x = Some (mkTns (resolve_lpc_weighting dt nbytes) (repeat [] (tns_nfilters dt bw)), x).
Proof.
  intros C L. apply analyze_none; [exact C|exact L|]. intros f Hf.
  destruct (analyze_filter_ok fl junk junk dt bw nbytes true x f C L Hf) as (q & rc & _ & E & _).
  revert E. unfold tns_analyze_filter. destruct (autocorr fl junk dt bw (if dt <=? DT_5M then 4 else 8) x f); [|discriminate]. cbn [bind].
  destruct (levinson fl junk (if dt <=? DT_5M then 4 else 8) l) as [[a g]|]; [|discriminate]. cbn [bind orb]. eauto.
Qed.

(** *** Null spectrum *)
Record zero_laws (Zp : F -> Prop) : Prop := {
  zl_0 : Zp (f_z fl 0);
  zl_add : forall x y, Zp x -> Zp y -> Zp (f_add fl x y);
  zl_sub : forall x y, Zp x -> Zp y -> Zp (f_sub fl x y);
  zl_mul : forall x y, Zp x -> Zp y -> Zp (f_mul fl x y);
  zl_opp : forall x, Zp x -> Zp (f_opp fl x);
  zl_eq : forall x, Zp x -> f_eq fl x (f_z fl 0) = true;
  zl_div : forall x n, Zp x -> n = 2 \/ n = 3 -> Zp (f_div fl x (f_z fl n));
  zl_err : forall x n, Zp x -> n = 2 \/ n = 3 -> f_mul fl (f_z fl n) (f_sub fl (f_z fl 1) x) = f_z fl n;
  zl_gain : forall n, n = 2 \/ n = 3 -> f_le fl (f_div fl (f_z fl n) (f_z fl n)) (f_dy fl 3 1) = true }.

Context (Zp : F -> Prop) (ZL : zero_laws Zp).

Lemma dot_zero x i j n v : Forall Zp x -> dot fl x i j n = Some v -> Zp v.
Proof.
  intros H. unfold dot. destruct (n <? 0) eqn:E; [discriminate|]. apply (for_post (fun _ v => Zp v)); [lia| |apply (zl_0 _ ZL)].
  intros k a a' _ Ha. destruct (rd x (i + k)) as [u|] eqn:U; [|discriminate]. cbn [bind]. destruct (rd x (j + k)) as [w|] eqn:W; [|discriminate]. cbn [bind]. intros [= <-].
  rewrite Forall_forall in H. apply (zl_add _ ZL); [exact Ha|]. apply (zl_mul _ ZL); apply H; eapply rd_In; eassumption.
Qed.

Definition zrow (lo hi : Z) (l : list F) : Prop := forall i v, lo <= i < hi -> rd l i = Some v -> Zp v.
Lemma zrow_upd lo hi l i v : 0 <= i < zlen l -> zrow lo hi l -> Zp v -> zrow lo hi (upd l i v).
Proof. intros Hi H Hv j w Hj. rewrite rd_upd by exact Hi. destruct (i =? j); [intros [= <-]; exact Hv|apply H; exact Hj]. Qed.
Lemma zrow_next lo hi l v : 0 <= hi < zlen l -> zrow lo hi l -> Zp v -> zrow lo (hi + 1) (upd l hi v).
Proof. intros Hi H Hv j w Hj. rewrite rd_upd by exact Hi. destruct (hi =? j) eqn:E; [intros [= <-]; exact Hv|apply H; lia]. Qed.

Lemma sub_corr_zero sub nsub m x f s c : Forall Zp x -> 0 <= m -> sub_corr fl sub nsub m x f s = Some c -> zrow 0 9 c.
Proof.
  intros H Hm. unfold sub_corr. destruct (rd sub (f * nsub + s)) as [xs|]; [|discriminate]. cbn [bind]. destruct (rd sub (f * nsub + s + 1)) as [xe|]; [|discriminate]. cbn [bind].
  apply (for_post (fun _ c => zrow 0 9 c)); [lia| |].
  - intros j t t' _ Ht. destruct (dot fl x xs (xs + j) (xe - xs - j)) as [v|] eqn:V; [|discriminate]. cbn [bind]. intros E. apply wr_inv in E as [Hj ->].
    apply zrow_upd; [exact Hj|exact Ht|]. eapply dot_zero; eassumption.
  - intros i v Hi. rewrite rd_repeat by lia. intros [= <-]. apply (zl_0 _ ZL).
Qed.

Lemma autocorr_zero junk dt bw m x f r : Forall Zp x -> 0 <= m -> autocorr fl junk dt bw m x f = Some r ->
  exists n, (n = 2 \/ n = 3) /\ rd r 0 = Some (f_z fl n) /\ zrow 1 (m + 1) r.
Proof.
  intros H Hm. unfold autocorr. cbv zeta. fold (tns_nsub dt). destruct (sub_corr fl (tns_sub dt bw) (tns_nsub dt) m x f 0) as [c0|] eqn:C0; [|discriminate]. cbn [bind].
  destruct (sub_corr fl (tns_sub dt bw) (tns_nsub dt) m x f 1) as [c1|] eqn:C1; [|discriminate]. cbn [bind].
  match goal with |- context [bind ?o _] => destruct o as [c2|]; [|discriminate] end. cbn [bind]. destruct (wr (repeat junk 9) 0 (f_z fl (tns_nsub dt))) as [r0|] eqn:R0; [|discriminate]. cbn [bind].
  destruct (rd c0 0) as [e0|] eqn:E0; [|discriminate]. cbn [bind]. destruct (rd c1 0) as [e1|]; [|discriminate]. cbn [bind].
  match goal with |- context [bind ?o _] => destruct o as [e2|]; [|discriminate] end. cbn [bind].
  pose proof (sub_corr_zero _ _ _ _ _ _ _ H Hm C0 0 e0 ltac:(lia) E0) as Z0. rewrite (zl_eq _ ZL _ Z0). cbn [orb]. intros E. exists (tns_nsub dt). split; [apply nsub_cases|].
  apply wr_inv in R0 as [B0 ->].
  refine (for_post (fun i r => rd r 0 = Some (f_z fl (tns_nsub dt)) /\ zrow 1 i r) _ 1 (m + 1) _ r ltac:(lia) _ _ E).
  - intros k t t' Hk [T0 T1]. destruct (rd c0 k) as [v0|]; [|discriminate]. cbn [bind]. destruct (rd c1 k) as [v1|]; [|discriminate]. cbn [bind].
    match goal with |- context [bind ?o _] => destruct o as [v2|]; [|discriminate] end. cbn [bind]. destruct (rd tns_lag_window k) as [w|]; [|discriminate]. cbn [bind].
    intros W. apply wr_inv in W as [Bk ->]. split; [rewrite rd_upd by exact Bk; replace (k =? 0) with false by lia; exact T0|]. apply zrow_next; [exact Bk|exact T1|apply (zl_0 _ ZL)].
  - split; [rewrite rd_upd by exact B0; reflexivity|]. intros i v Hi. lia.
Qed.

Lemma levinson_step_zero r src dst k n m s : n = 2 \/ n = 3 -> 1 <= k <= m -> zrow 1 (m + 1) r -> zrow 1 k src -> levinson_step fl r src dst k (f_z fl n) = Some s ->
  zrow 1 (k + 1) (fst s) /\ snd s = f_z fl n.
Proof.
  intros Hn Hk Hr Hs. unfold levinson_step. destruct (rd r k) as [rk|] eqn:R; [|discriminate]. cbn [bind]. pose proof (Hr k _ ltac:(lia) R) as Zk.
  match goal with |- context [bind (for_ 1 k ?g ?i) _] => destruct (for_ 1 k g i) as [rc|] eqn:E1; [|discriminate]; apply (for_post (fun _ v => Zp v)) in E1 end; [|lia| |apply (zl_opp _ ZL); exact Zk].
  - cbn [bind]. rewrite (zl_err _ ZL) by (auto; apply (zl_mul _ ZL); apply (zl_div _ ZL); auto). assert (Zr : Zp (f_div fl rc (f_z fl n))) by (apply (zl_div _ ZL); auto).
    match goal with |- context [bind (for_ 1 k ?g ?i) _] => destruct (for_ 1 k g i) as [d|] eqn:E2; [|discriminate]; apply (for_post (fun i d => zrow 1 i d)) in E2 end; [|lia| |intros i v Hi; lia].
    + cbn [bind]. destruct (wr d k (f_div fl rc (f_z fl n))) as [d'|] eqn:W; [|discriminate]. cbn [bind]. intros [= <-]. cbn [fst snd]. split; [|reflexivity].
      apply wr_inv in W as [B ->]. apply zrow_next; assumption.
    + intros i t t' Hi Ht. destruct (rd src i) as [a|] eqn:A; [|discriminate]. cbn [bind]. destruct (rd src (k - i)) as [b|] eqn:B; [|discriminate]. cbn [bind]. intros W. apply wr_inv in W as [Bi ->].
      apply zrow_next; [exact Bi|exact Ht|]. pose proof (Hs _ _ Hi A). pose proof (Hs (k - i) _ ltac:(lia) B). apply (zl_add _ ZL); [assumption|]. apply (zl_mul _ ZL); assumption.
  - intros i t t' Hi Ht. destruct (rd src i) as [a|] eqn:A; [|discriminate]. cbn [bind]. destruct (rd r (k - i)) as [b|] eqn:B; [|discriminate]. cbn [bind]. intros [= <-].
    apply (zl_sub _ ZL); [exact Ht|]. apply (zl_mul _ ZL); [exact (Hs _ _ Hi A)|]. exact (Hr (k - i) _ ltac:(lia) B).
Qed.

Lemma levinson_zero junk m r n a g : n = 2 \/ n = 3 -> 0 <= m -> rd r 0 = Some (f_z fl n) -> zrow 1 (m + 1) r -> levinson fl junk m r = Some (a, g) -> g = f_div fl (f_z fl n) (f_z fl n).
Proof.
  intros Hn Hm R0 Hr. unfold levinson. rewrite R0. cbn [bind]. destruct (wr (repeat junk 9) 0 (f_z fl 1)) as [a0|] eqn:W; [|discriminate]. cbn [bind].
  assert (M : 2 * (m / 2) <= m) by (Z.div_mod_to_equations; lia).
  match goal with |- context [bind (for_ 0 (m / 2) ?h ?i) _] => destruct (for_ 0 (m / 2) h i) as [[[b0 b1] e]|] eqn:E; [|discriminate];
    apply (for_post (fun p s => zrow 1 (2 * p + 1) (fst (fst s)) /\ snd s = f_z fl n)) in E end.
  - cbn [bind fst snd] in *. destruct E as [_ ->]. intros [= _ <-]. reflexivity.
  - Z.div_mod_to_equations; lia.
  - clear E b0 b1 e. intros p [[u0 u1] e'] t' Hp [Hb He]. cbn [fst snd] in *. subst e'. destruct (levinson_step fl r u0 u1 (2 * p + 1) (f_z fl n)) as [s1|] eqn:S1; [|discriminate]. cbn [bind].
    destruct (levinson_step_zero r u0 u1 (2 * p + 1) n m s1) as [Z1 Z2]; auto; try lia. destruct s1 as [b1 e1]. cbn [fst snd] in *. subst e1.
    destruct (levinson_step fl r b1 u0 (2 * p + 2) (f_z fl n)) as [s2|] eqn:S2; [|discriminate]. cbn [bind].
    destruct (levinson_step_zero r b1 u0 (2 * p + 2) n m s2) as [Z3 Z4]; auto; try lia. { replace (2 * p + 2) with (2 * p + 1 + 1) by lia. exact Z1. }
    destruct s2 as [b0 e2]. cbn [fst snd] in *. intros [= <-]. cbn [fst snd]. split; [|exact Z4]. replace (2 * (p + 1) + 1) with (2 * p + 2 + 1) by lia. exact Z3.
  - cbn [fst snd]. split; [|reflexivity]. intros i v Hi. lia.
Qed.

(** No filter on a null spectrum. *)
Theorem analyze_zero junk dt bw nn nbytes x : tns_cfg dt bw -> tns_end dt bw <= zlen x -> Forall Zp x ->
  tns_analyze fl junk dt bw nn nbytes x = Some (mkTns (resolve_lpc_weighting dt nbytes) (repeat [] (tns_nfilters dt bw)), x).
Proof.
  intros C L H. apply analyze_none; [exact C|exact L|]. intros f Hf.
  destruct (analyze_filter_ok fl junk junk dt bw nbytes nn x f C L Hf) as (q & rc & _ & E & _).
  revert E. unfold tns_analyze_filter. fold (tns_order dt). pose proof (order_cases dt) as HO. destruct (autocorr fl junk dt bw (tns_order dt) x f) as [r|] eqn:A; [|discriminate]. cbn [bind].
  destruct (autocorr_zero junk dt bw (tns_order dt) x f r H ltac:(lia) A) as (n & Hn & R0 & R1).
  destruct (levinson fl junk (tns_order dt) r) as [[a g]|] eqn:Lv; [|discriminate]. cbn [bind].
  rewrite (levinson_zero junk (tns_order dt) r n a g Hn ltac:(lia) R0 R1 Lv), (zl_gain _ ZL n Hn), orb_true_r. eauto.
Qed.
(** No filter when a sub-band of it is null. *)
Definition null_in (x : list F) (lo hi : Z) : Prop := forall i v, lo <= i < hi -> rd x i = Some v -> Zp v.
Lemma dot_null x i n v : null_in x i (i + n) -> dot fl x i i n = Some v -> Zp v.
Proof.
  intros H. unfold dot. destruct (n <? 0) eqn:E; [discriminate|]. apply (for_post (fun _ v => Zp v)); [lia| |apply (zl_0 _ ZL)].
  intros k a a' Hk Ha. destruct (rd x (i + k)) as [u|] eqn:U; [|discriminate]. cbn [bind]. intros [= <-].
  apply (zl_add _ ZL); [exact Ha|]. apply (zl_mul _ ZL); eapply H; try eassumption; lia.
Qed.
Lemma sub_corr_null sub nsub m x f s c a b e : 0 <= m -> rd sub (f * nsub + s) = Some a -> rd sub (f * nsub + s + 1) = Some b -> null_in x a b ->
  sub_corr fl sub nsub m x f s = Some c -> rd c 0 = Some e -> Zp e.
Proof.
  intros Hm Ea Eb H. unfold sub_corr. rewrite Ea. cbn [bind]. rewrite Eb. cbn [bind]. intros E R0.
  refine (for_post (fun j c => forall e, rd c 0 = Some e -> Zp e) _ 0 (m + 1) _ c ltac:(lia) _ _ E e R0).
  - intros j t t' Hj Ht. destruct (dot fl x a (a + j) (b - a - j)) as [v|] eqn:V; [|discriminate]. cbn [bind]. intros W. apply wr_inv in W as [Bj ->].
    intros e'. rewrite rd_upd by exact Bj. destruct (j =? 0) eqn:J; [|apply Ht]. intros [= <-]. replace j with 0 in V by lia. rewrite Z.add_0_r in V.
    eapply dot_null; [|exact V]. replace (a + (b - a - 0)) with b by lia. exact H.
  - intros e'. rewrite rd_repeat by lia. intros [= <-]. apply (zl_0 _ ZL).
Qed.
Lemma autocorr_null junk dt bw m x f s a b r : 0 <= m -> 0 <= s < tns_nsub dt ->
  rd (tns_sub dt bw) (f * tns_nsub dt + s) = Some a -> rd (tns_sub dt bw) (f * tns_nsub dt + s + 1) = Some b -> null_in x a b ->
  autocorr fl junk dt bw m x f = Some r -> exists n, (n = 2 \/ n = 3) /\ rd r 0 = Some (f_z fl n) /\ zrow 1 (m + 1) r.
Proof.
  intros Hm Hs Ea Eb H. unfold autocorr. cbv zeta. fold (tns_nsub dt).
  destruct (sub_corr fl (tns_sub dt bw) (tns_nsub dt) m x f 0) as [c0|] eqn:C0; [|discriminate]. cbn [bind].
  destruct (sub_corr fl (tns_sub dt bw) (tns_nsub dt) m x f 1) as [c1|] eqn:C1; [|discriminate]. cbn [bind].
  match goal with |- context [bind ?o _] => destruct o as [c2|] eqn:C2; [|discriminate] end. cbn [bind]. destruct (wr (repeat junk 9) 0 (f_z fl (tns_nsub dt))) as [r0|] eqn:R0; [|discriminate]. cbn [bind].
  destruct (rd c0 0) as [e0|] eqn:E0; [|discriminate]. cbn [bind]. destruct (rd c1 0) as [e1|] eqn:E1; [|discriminate]. cbn [bind].
  match goal with |- context [bind ?o _] => destruct o as [e2|] eqn:E2; [|discriminate] end. cbn [bind].
  assert (Q : f_eq fl e0 (f_z fl 0) || f_eq fl e1 (f_z fl 0) || (negb (tns_nsub dt =? 2) && f_eq fl e2 (f_z fl 0)) = true).
  { assert (S3 : s = 0 \/ s = 1 \/ s = 2 /\ tns_nsub dt = 3) by (pose proof (nsub_cases dt); lia). destruct S3 as [-> | [-> | [-> S3]]].
    - rewrite (zl_eq _ ZL _ (sub_corr_null _ _ _ _ _ _ _ _ _ _ Hm Ea Eb H C0 E0)). reflexivity.
    - rewrite (zl_eq _ ZL _ (sub_corr_null _ _ _ _ _ _ _ _ _ _ Hm Ea Eb H C1 E1)). destruct (f_eq fl e0 (f_z fl 0)); reflexivity.
    - rewrite S3 in *. cbn [Z.eqb Pos.eqb negb andb] in *. rewrite (zl_eq _ ZL _ (sub_corr_null _ _ _ _ _ _ _ _ _ _ Hm Ea Eb H C2 E2)). apply orb_true_r. }
  rewrite Q. intros E. exists (tns_nsub dt). split; [apply nsub_cases|].
  apply wr_inv in R0 as [B0 ->].
  refine (for_post (fun i r => rd r 0 = Some (f_z fl (tns_nsub dt)) /\ zrow 1 i r) _ 1 (m + 1) _ r ltac:(lia) _ _ E).
  - intros k t t' Hk [T0 T1]. destruct (rd c0 k) as [v0|]; [|discriminate]. cbn [bind]. destruct (rd c1 k) as [v1|]; [|discriminate]. cbn [bind].
    match goal with |- context [bind ?o _] => destruct o as [v2|]; [|discriminate] end. cbn [bind]. destruct (rd tns_lag_window k) as [w|]; [|discriminate]. cbn [bind].
    intros W. apply wr_inv in W as [Bk ->]. split; [rewrite rd_upd by exact Bk; replace (k =? 0) with false by lia; exact T0|]. apply zrow_next; [exact Bk|exact T1|apply (zl_0 _ ZL)].
  - split; [rewrite rd_upd by exact B0; reflexivity|]. intros i v Hi. lia.
Qed.
Theorem analyze_null_band junk dt bw nn nbytes x f s a b : tns_cfg dt bw -> tns_end dt bw <= zlen x -> 0 <= f < nfil dt bw -> 0 <= s < tns_nsub dt ->
  rd (tns_sub dt bw) (f * tns_nsub dt + s) = Some a -> rd (tns_sub dt bw) (f * tns_nsub dt + s + 1) = Some b -> null_in x a b ->
  exists d y, tns_analyze fl junk dt bw nn nbytes x = Some (d, y) /\ rd (t_filters d) f = Some [].
Proof.
  intros C L Hf Hs Ea Eb H. destruct (analyze_ok fl junk dt bw nn nbytes x C L) as (d & y & E & _). exists d, y. split; [exact E|].
  assert (N : exists rc, tns_analyze_filter fl junk dt bw nbytes nn x f = Some ([], rc)).
  { destruct (analyze_filter_ok fl junk junk dt bw nbytes nn x f C L Hf) as (q & rc & _ & Eq & _).
    revert Eq. unfold tns_analyze_filter. fold (tns_order dt). pose proof (order_cases dt) as HO. destruct (autocorr fl junk dt bw (tns_order dt) x f) as [r|] eqn:A; [|discriminate]. cbn [bind].
    destruct (autocorr_null junk dt bw (tns_order dt) x f s a b r ltac:(lia) Hs Ea Eb H A) as (n & Hn & R0 & R1).
    destruct (levinson fl junk (tns_order dt) r) as [[l g]|] eqn:Lv; [|discriminate]. cbn [bind].
    rewrite (levinson_zero junk (tns_order dt) r n l g Hn ltac:(lia) R0 R1 Lv), (zl_gain _ ZL n Hn), orb_true_r. eauto. }
  destruct N as (rc & N). revert E. unfold tns_analyze. destruct (tns_analyze_filter fl junk dt bw nbytes nn x 0) as [p0|] eqn:P0; [|discriminate]. cbn [bind].
  unfold nfil in Hf. assert (NF : tns_nfilters dt bw = 1%nat \/ tns_nfilters dt bw = 2%nat) by (unfold tns_nfilters; destruct (_ && _); auto).
  destruct NF as [NF | NF]; rewrite NF in *; cbn [Nat.eqb].
  - cbn [bind]. match goal with |- context [bind ?o _] => destruct o as [z|]; [|discriminate] end. cbn [bind]. intros [= <- _]. cbn [t_filters map].
    replace f with 0 in * by lia. rewrite N in P0. injection P0 as <-. reflexivity.
  - destruct (tns_analyze_filter fl junk dt bw nbytes nn x 1) as [p1|] eqn:P1; [|discriminate]. cbn [bind].
    match goal with |- context [bind ?o _] => destruct o as [z|]; [|discriminate] end. cbn [bind]. intros [= <- _]. cbn [t_filters map].
    assert (F2 : f = 0 \/ f = 1) by lia. destruct F2 as [-> | ->]; rewrite N in *; [injection P0 as <-|injection P1 as <-]; reflexivity.
Qed.
End NoFilter.

(** ** The synthesis undoes the analysis *)
Theorem synthesize_analyze {F} (fl : fops F)
  (Rg : ring_theory (f_z fl 0) (f_z fl 1) (f_add fl) (f_mul fl) (f_sub fl) (f_opp fl) (@eq F))
  junk dt bw nn nbytes x d y : tns_cfg dt bw -> tns_end dt bw <= zlen x ->
  tns_analyze fl junk dt bw nn nbytes x = Some (d, y) -> tns_synthesize fl dt bw d y = Some x.
Proof.
  intros C L E. destruct (analyze_ok fl junk dt bw nn nbytes x C L) as (d' & y' & E' & (_ & T2 & T3) & _ & _ & _ & _ & fs & F1 & F2 & F3).
  assert (d' = d /\ y' = y) as [-> ->] by (split; congruence). unfold tns_synthesize.
  assert (HQ : Forall (fun q => Forall (fun c => -8 <= c <= 8) q /\ zlen q <= 8) (t_filters d)).
  { eapply Forall_impl; [|exact T3]. intros q [B1 B2]. split; [exact B2|]. unfold tns_max_order in B1. destruct (dt <=? 1); lia. }
  destruct (synth_filters fl (t_filters d) HQ) as (fs' & S1 & S2). rewrite S1. cbn [bind].
  eapply filters_inverse; [exact Rg|exact C|exact L| |exact F2|exact F1].
  clear - F3 S2 HQ. revert fs' S2. induction F3 as [|q p qs fs (A1 & A2 & A3) H IH]; intros [|p' fs'] S2; try (inversion S2; fail); [constructor|].
  apply F2c in S2 as [(B1 & B2 & B3 & B4) S2]. inversion HQ as [|? ? [Q1 Q2] HQ']. subst. constructor; [|apply IH; assumption].
  split; [congruence|]. rewrite A1. assert (0 <= zlen q) by (unfold zlen; lia). unfold filter_pair. spl; try assumption; try lia. split; [lia|].
  intros i Hi. destruct (rd_ok q i ltac:(lia)) as (v & V). rewrite (A3 _ _ V), (B3 _ _ V). reflexivity.
Qed.

(** ** Accesses of the synthesis, for any data that can be in a frame *)
Section Synthesis.
Context {F : Type} (fl : fops F).

Lemma inverse_coeff_ok rc i s x : zlen rc = 8 -> zlen s = 8 -> 0 <= i < zlen x ->
  exists s' v, inverse_coeff fl rc i (s, x) = Some (s', upd x i v) /\ zlen s' = 8.
Proof.
  intros Lr Ls Hi. destruct (rd_ok x i Hi) as (v & V).
  destruct (list8 _ Lr) as (r0 & r1 & r2 & r3 & r4 & r5 & r6 & r7 & ->). destruct (list8 _ Ls) as (s0 & s1 & s2 & s3 & s4 & s5 & s6 & s7 & ->).
  do 2 eexists. split.
  - apply (inverse_coeff_scalar fl _ _ _ _ v _ _ V). unfold inv_scalar. cbv -[f_add f_sub f_mul]. reflexivity.
  - reflexivity.
Qed.

Lemma inverse_filtering_ok dt bw fs x : tns_cfg dt bw -> tns_end dt bw <= zlen x -> Forall (fun p : Z * list F => 0 <= fst p <= 8 /\ zlen (snd p) = 8) fs -> zlen fs = nfil dt bw ->
  exists y, inverse_filtering fl dt bw fs x = Some y /\ zlen y = zlen x /\ (forall i, i < 3 * (1 + dt) \/ tns_end dt bw <= i -> rd y i = rd x i) /\
    (Forall (fun p => fst p = 0) fs -> y = x).
Proof.
  intros C L Hs Lf. unfold inverse_filtering. fold (nfil dt bw). match goal with |- context [for_ 0 _ ?gg _] => set (g := gg) end.
  set (Iv := fun (a : list F * list F) => zlen (fst a) = 8 /\ zlen (snd a) = zlen x /\ forall i, i < 3 * (1 + dt) \/ tns_end dt bw <= i -> rd (snd a) i = rd x i).
  destruct (for_inv (fun _ a => Iv a /\ (Forall (fun p => fst p = 0) fs -> snd a = x)) g 0 (nfil dt bw) (repeat (f_z fl 0) 8, x)) as (s & E & (L1 & L2 & R) & H0).
  - pose proof (nfil_cases dt bw). lia.
  - unfold Iv. cbn [fst snd]. spl; auto.
  - intros f [s y] Hf ((L1 & L2 & R) & H0). cbn [fst snd] in *. unfold g. destruct (rd_ok fs f ltac:(lia)) as ([o rc] & P). rewrite P. cbn [bind].
    rewrite Forall_forall in Hs. destruct (Hs _ (rd_In _ _ _ P)) as [Ho Lr]. cbn [fst snd] in *.
    destruct (o =? 0) eqn:O0; [exists (s, y); unfold Iv; cbn [fst snd]; auto 8|].
    destruct (start_end dt bw f C Hf) as (B1 & B2). fold (tns_start dt bw f).
    destruct (for_inv (fun _ a => Iv a) (inverse_coeff fl rc) (tns_start dt bw f) (tns_nf dt bw * (1 + f)) (s, y)) as ([s' y'] & E & M1 & M2 & R').
    + lia.
    + unfold Iv. cbn [fst snd]. auto.
    + intros i [s' y'] Hi (M1 & M2 & R'). cbn [fst snd] in *. destruct (inverse_coeff_ok rc i s' y' Lr M1 ltac:(lia)) as (s2 & v & V1 & V2). rewrite V1.
      eexists. split; [reflexivity|]. unfold Iv. cbn [fst snd]. spl; [exact V2|rewrite upd_len; exact M2|].
      intros j Hj. rewrite rd_upd by lia. destruct (i =? j) eqn:E; [|apply R'; exact Hj]. exfalso.
      pose proof (tns_nf_check dt bw C). assert (3 * (1 + dt) <= tns_start dt bw f) by (unfold tns_start; destruct (f =? 0) eqn:E0; [lia|nia]). lia.
    + rewrite E. cbn [bind fst snd] in *. destruct (clear_state fl s' o M1 Ho) as (s3 & E3 & L3 & _). rewrite E3. cbn [bind]. eexists. split; [reflexivity|]. split; [unfold Iv; cbn [fst snd]; auto|].
      intros N. rewrite Forall_forall in N. pose proof (N _ (rd_In _ _ _ P)) as N0. cbn [fst] in N0. lia.
  - rewrite E. cbn [bind]. exists (snd s). auto.
Qed.

Lemma tns_ok_filters dt bw nbytes d : tns_ok dt bw nbytes d -> Forall (fun q => Forall (fun c => -8 <= c <= 8) q /\ zlen q <= 8) (t_filters d) /\ zlen (t_filters d) = nfil dt bw.
Proof.
  intros (_ & T2 & T3). split.
  - eapply Forall_impl; [|exact T3]. intros q [B1 B2]. split; [exact B2|]. unfold tns_max_order in B1. destruct (dt <=? 1); lia.
  - unfold zlen, nfil, tns_nfilters. rewrite T2. reflexivity.
Qed.

Theorem synthesize_ok dt bw nbytes d x : tns_cfg dt bw -> tns_end dt bw <= zlen x -> tns_ok dt bw nbytes d ->
  exists y, tns_synthesize fl dt bw d x = Some y /\ zlen y = zlen x /\ (forall i, i < 3 * (1 + dt) \/ tns_end dt bw <= i -> rd y i = rd x i) /\
    (Forall (fun q => q = []) (t_filters d) -> y = x).
Proof.
  intros C L T. destruct (tns_ok_filters _ _ _ _ T) as [HQ Ln]. unfold tns_synthesize. destruct (synth_filters fl (t_filters d) HQ) as (fs & S1 & S2). rewrite S1. cbn [bind].
  destruct (inverse_filtering_ok dt bw fs x C L) as (y & Y1 & Y2 & Y3 & Y4).
  - clear - S2 HQ. induction S2 as [|q p qs fs (A1 & A2 & _) H IH]; [constructor|]. inversion HQ as [|? ? [Q1 Q2] HQ']. subst. constructor; [|auto]. rewrite A1. unfold zlen in *. lia.
  - apply F2len in S2. unfold zlen in *. lia.
  - exists y. spl; auto. intros N. apply Y4. clear - S2 N. induction S2 as [|q p qs fs (A1 & _) H IH]; [constructor|]. inversion N. subst. constructor; [exact A1|auto].
Qed.
End Synthesis.
