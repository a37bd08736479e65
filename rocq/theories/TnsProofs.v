(** * TNS analysis: accesses, independence of what is not initialised *)
From Coq Require Import ZArith List Bool Lia ZifyBool.
From Verif Require Import Base BaseProofs ConfigModel SideModel ShapeTables FloatOps LoopProofs TnsModel.
Import ListNotations.
Local Open Scope Z_scope.

Ltac spl := repeat match goal with |- _ /\ _ => split end.

(** The frames: durations of 2.5 to 10 ms, bandwidths; no high resolution with 7.5 ms. *)
Definition tns_cfg (dt bw : Z) : Prop := 0 <= dt <= 3 /\ 0 <= bw <= 6 /\ (dt = DT_7M5 -> bw <= SRATE_48K).
Definition tns_order (dt : Z) : Z := if dt <=? DT_5M then 4 else 8.
Definition tns_nsub (dt : Z) : Z := 2 + b2z (DT_7M5 <=? dt).
Definition tns_end (dt bw : Z) : Z := c_ne dt (Z.min bw SRATE_48K).
Definition nfil (dt bw : Z) : Z := Z.of_nat (tns_nfilters dt bw).

(** Sub-bands of at least [order] coefficients, in the spectrum. *)
Fixpoint sub_rows (m lim : Z) (l : list Z) : bool :=
  match l with
  | a :: (b :: _) as t => (0 <=? a) && (a + m <=? b) && (b <=? lim) && sub_rows m lim t
  | _ => true
  end.
Definition sub_check (dt bw : Z) : bool :=
  (zlen (tns_sub dt bw) =? nfil dt bw * tns_nsub dt + 1) && sub_rows (tns_order dt) (tns_end dt bw) (tns_sub dt bw).

Lemma tns_cfg_cases dt bw : tns_cfg dt bw ->
  In (dt, bw) (list_prod [0; 1; 3] [0; 1; 2; 3; 4; 5; 6] ++ list_prod [2] [0; 1; 2; 3; 4]).
Proof.
  intros (H1 & H2 & H3). unfold DT_7M5, SRATE_48K in H3. apply in_app_iff. rewrite !in_prod_iff. cbn [In]. lia.
Qed.

Lemma all_cfg (P : Z -> Z -> bool) :
  forallb (fun p => P (fst p) (snd p)) (list_prod [0; 1; 3] [0; 1; 2; 3; 4; 5; 6] ++ list_prod [2] [0; 1; 2; 3; 4]) = true ->
  forall dt bw, tns_cfg dt bw -> P dt bw = true.
Proof. intros H dt bw C. rewrite forallb_forall in H. exact (H _ (tns_cfg_cases dt bw C)). Qed.

Lemma sub_checked dt bw : tns_cfg dt bw -> sub_check dt bw = true.
Proof. revert dt bw. apply all_cfg. vm_compute. reflexivity. Qed.

Lemma sub_rows_rd m lim : forall l j, sub_rows m lim l = true -> 0 <= j -> j + 1 < zlen l ->
  exists a b, rd l j = Some a /\ rd l (j + 1) = Some b /\ 0 <= a /\ a + m <= b <= lim.
Proof.
  induction l as [|a l IH]; intros j H Hj L; [unfold zlen in L; cbn in L; lia|].
  destruct l as [|b l]; [unfold zlen in L; cbn in L; lia|]. cbn [sub_rows] in H. fold (sub_rows m lim (b :: l)) in H.
  apply andb_prop in H as [H H2]. destruct (Z.eq_dec j 0) as [->|N].
  - exists a, b. spl; try reflexivity; lia.
  - destruct (IH (j - 1) H2 ltac:(lia)) as (u & v & E1 & E2 & H3).
    + unfold zlen in *. cbn [length] in *. lia.
    + exists u, v. unfold rd in *. rewrite <- E1, <- E2.
      replace (Z.to_nat (j + 1)) with (Datatypes.S (Z.to_nat (j - 1 + 1))) by lia.
      replace (Z.to_nat j) with (Datatypes.S (Z.to_nat (j - 1))) by lia.
      replace (j <? 0) with false by lia. replace (j - 1 <? 0) with false by lia.
      replace (j + 1 <? 0) with false by lia. replace (j - 1 + 1 <? 0) with false by lia. split; [reflexivity|]. split; [reflexivity|exact H3].
Qed.

Lemma nfil_cases dt bw : nfil dt bw = 1 \/ nfil dt bw = 2.
Proof. unfold nfil, tns_nfilters. destruct ((DT_5M <=? dt) && (SRATE_32K <=? bw)); cbn; lia. Qed.
Lemma order_cases dt : tns_order dt = 4 \/ tns_order dt = 8.
Proof. unfold tns_order. destruct (dt <=? DT_5M); lia. Qed.
Lemma nsub_cases dt : tns_nsub dt = 2 \/ tns_nsub dt = 3.
Proof. unfold tns_nsub. destruct (DT_7M5 <=? dt); cbn; lia. Qed.

Section Access.
Context {F : Type} (fl : fops F).

Lemma dot_ok x i j n : 0 <= n -> 0 <= i -> 0 <= j -> i + n <= zlen x -> j + n <= zlen x -> exists v, dot fl x i j n = Some v.
Proof.
  intros Hn Hi Hj L1 L2. unfold dot. destruct (n <? 0) eqn:E; [lia|].
  destruct (for_inv (fun _ (_ : F) => True) (fun k v => do a <- rd x (i + k); do b <- rd x (j + k); Some (f_add fl v (f_mul fl a b))) 0 n (f_z fl 0)) as (v & Ev & _); auto.
  - intros k v Hk _. destruct (rd_ok x (i + k)) as (a & Ea); [lia|]. destruct (rd_ok x (j + k)) as (b & Eb); [lia|].
    rewrite Ea, Eb. cbn [bind]. eauto.
  - eauto.
Qed.

Lemma sub_corr_ok dt bw x f s : tns_cfg dt bw -> tns_end dt bw <= zlen x -> 0 <= f < nfil dt bw -> 0 <= s < tns_nsub dt ->
  exists c, sub_corr fl (tns_sub dt bw) (tns_nsub dt) (tns_order dt) x f s = Some c /\ zlen c = 9.
Proof.
  intros C L Hf Hs. pose proof (sub_checked dt bw C) as K. apply andb_prop in K as [K1 K2]. apply Z.eqb_eq in K1.
  pose proof (order_cases dt). pose proof (nsub_cases dt). pose proof (nfil_cases dt bw).
  destruct (sub_rows_rd _ _ _ (f * tns_nsub dt + s) K2) as (a & b & E1 & E2 & H3 & H4); [nia|nia|].
  unfold sub_corr. rewrite E1. cbn [bind]. rewrite E2. cbn [bind].
  apply (for_inv (fun _ c => zlen c = 9)); [lia|reflexivity|]. intros k c Hk Lc.
  destruct (dot_ok x a (a + k) (b - a - k)) as (v & Ev); try lia. rewrite Ev. cbn [bind]. rewrite wr_ok by lia. eexists. split; [reflexivity|].
  rewrite upd_len. exact Lc.
Qed.

Variables (j1 j2 : F).

Lemma autocorr_ok dt bw x f : tns_cfg dt bw -> tns_end dt bw <= zlen x -> 0 <= f < nfil dt bw ->
  exists r1 r2, autocorr fl j1 dt bw (tns_order dt) x f = Some r1 /\ autocorr fl j2 dt bw (tns_order dt) x f = Some r2 /\
    zlen r1 = 9 /\ agree 0 (tns_order dt + 1) r1 r2.
Proof.
  intros C L Hf. pose proof (order_cases dt) as HO. pose proof (nsub_cases dt) as HN.
  destruct (sub_corr_ok dt bw x f 0 C L Hf ltac:(lia)) as (c0 & E0 & L0).
  destruct (sub_corr_ok dt bw x f 1 C L Hf ltac:(lia)) as (c1 & E1 & L1).
  assert (E2 : exists c2, (if tns_nsub dt =? 2 then Some [] else sub_corr fl (tns_sub dt bw) (tns_nsub dt) (tns_order dt) x f 2) = Some c2 /\
                 (tns_nsub dt =? 2 = false -> zlen c2 = 9)).
  { destruct (tns_nsub dt =? 2) eqn:E; [exists []; split; [reflexivity|discriminate]|].
    destruct (sub_corr_ok dt bw x f 2 C L Hf ltac:(lia)) as (c2 & E2 & L2). exists c2. auto. }
  destruct E2 as (c2 & E2 & L2). unfold autocorr. fold (tns_nsub dt). rewrite E0. cbn [bind]. rewrite E1. cbn [bind]. rewrite E2. cbn [bind].
  rewrite !wr_ok by (rewrite zlen_repeat; lia). cbn [bind].
  destruct (rd_ok c0 0 ltac:(lia)) as (e0 & Q0). rewrite Q0. cbn [bind]. destruct (rd_ok c1 0 ltac:(lia)) as (e1 & Q1). rewrite Q1. cbn [bind].
  assert (Q2 : exists e2, (if tns_nsub dt =? 2 then Some e0 else rd c2 0) = Some e2).
  { destruct (tns_nsub dt =? 2) eqn:E; [eauto|]. apply rd_ok. rewrite L2 by reflexivity. lia. }
  destruct Q2 as (e2 & Q2). rewrite Q2. cbn [bind].
  match goal with |- context [for_ 1 _ ?g (upd (repeat j1 9) 0 ?v)] =>
    destruct (for_inv2 (fun k r1 r2 => zlen r1 = 9 /\ agree 0 k r1 r2) g g 1 (tns_order dt + 1) (upd (repeat j1 9) 0 v) (upd (repeat j2 9) 0 v)) as (r1 & r2 & R1 & R2 & R3 & R4)
  end.
  - lia.
  - split; [reflexivity|]. apply (agree_upd 0 0); [split; [reflexivity|lia]|rewrite zlen_repeat; lia].
  - intros k r1 r2 Hk [La Ag]. destruct (rd_ok c0 k ltac:(lia)) as (v0 & V0). rewrite V0. cbn [bind].
    destruct (rd_ok c1 k ltac:(lia)) as (v1 & V1). rewrite V1. cbn [bind].
    assert (V2 : exists v2, (if tns_nsub dt =? 2 then Some v0 else rd c2 k) = Some v2).
    { destruct (tns_nsub dt =? 2) eqn:E; [eauto|]. apply rd_ok. rewrite L2 by reflexivity. lia. }
    destruct V2 as (v2 & V2). rewrite V2. cbn [bind].
    destruct (rd_ok tns_lag_window k) as (w & W); [change (zlen tns_lag_window) with 9; lia|]. rewrite W. cbn [bind].
    destruct Ag as [Lb Ag]. rewrite !wr_ok by lia. do 2 eexists. split; [reflexivity|]. split; [reflexivity|].
    split; [rewrite upd_len; exact La|]. apply agree_upd; [split; assumption|lia].
  - exists r1, r2. auto.
Qed.

Lemma levinson_step_ok r1 r2 s1 s2 d1 d2 k err n :
  1 <= k < n -> n <= 9 -> zlen r1 = 9 -> agree 0 n r1 r2 -> zlen s1 = 9 -> agree 1 k s1 s2 -> zlen d1 = 9 -> zlen d2 = 9 ->
  exists d1' d2' e, levinson_step fl r1 s1 d1 k err = Some (d1', e) /\ levinson_step fl r2 s2 d2 k err = Some (d2', e) /\
    zlen d1' = 9 /\ agree 1 (k + 1) d1' d2'.
Proof.
  intros Hk Hn Lr Ar Ls As Ld1 Ld2. unfold levinson_step.
  destruct (agree_rd _ _ _ _ k Ar ltac:(lia) ltac:(lia)) as (rk & K1 & K2). rewrite K1, K2. cbn [bind].
  destruct (for_inv2 (fun _ (a b : F) => a = b)
    (fun i rc => do a <- rd s1 i; do v <- rd r1 (k - i); Some (f_sub fl rc (f_mul fl a v)))
    (fun i rc => do a <- rd s2 i; do v <- rd r2 (k - i); Some (f_sub fl rc (f_mul fl a v))) 1 k (f_opp fl rk) (f_opp fl rk)) as (u & u' & U1 & U2 & U3); [lia|reflexivity| |].
  { intros i v v' Hi <-. destruct (agree_rd _ _ _ _ i As ltac:(lia) ltac:(lia)) as (a & A1 & A2). rewrite A1, A2. cbn [bind].
    destruct (agree_rd _ _ _ _ (k - i) Ar ltac:(lia) ltac:(lia)) as (b & B1 & B2). rewrite B1, B2. cbn [bind]. eauto. }
  subst u'. rewrite U1, U2. cbn [bind]. set (rc := f_div fl u err).
  destruct (for_inv2 (fun i (a b : list F) => zlen a = 9 /\ agree 1 i a b)
    (fun i dst => do a <- rd s1 i; do b <- rd s1 (k - i); wr dst i (f_add fl a (f_mul fl rc b)))
    (fun i dst => do a <- rd s2 i; do b <- rd s2 (k - i); wr dst i (f_add fl a (f_mul fl rc b))) 1 k d1 d2) as (v & v' & V1 & V2 & V3 & V4).
  - lia.
  - split; [exact Ld1|]. split; [lia|lia].
  - intros i v v' Hi [La Aa]. destruct (agree_rd _ _ _ _ i As ltac:(lia) ltac:(lia)) as (a & A1 & A2). rewrite A1, A2. cbn [bind].
    destruct (agree_rd _ _ _ _ (k - i) As ltac:(lia) ltac:(lia)) as (b & B1 & B2). rewrite B1, B2. cbn [bind].
    pose proof (proj1 Aa). rewrite !wr_ok by lia. do 2 eexists. split; [reflexivity|]. split; [reflexivity|]. split; [rewrite upd_len; exact La|].
    apply agree_upd; [exact Aa|lia].
  - rewrite V1, V2. cbn [bind]. pose proof (proj1 V4). rewrite !wr_ok by lia. cbn [bind]. do 3 eexists. split; [reflexivity|]. split; [reflexivity|].
    split; [rewrite upd_len; exact V3|]. apply agree_upd; [exact V4|lia].
Qed.

Lemma levinson_ok dt r1 r2 : zlen r1 = 9 -> agree 0 (tns_order dt + 1) r1 r2 ->
  exists a1 a2 g, levinson fl j1 (tns_order dt) r1 = Some (a1, g) /\ levinson fl j2 (tns_order dt) r2 = Some (a2, g) /\
    zlen a1 = 9 /\ agree 1 (tns_order dt + 1) a1 a2.
Proof.
  intros Lr Ar. pose proof (order_cases dt) as HO. unfold levinson.
  destruct (agree_rd _ _ _ _ 0 Ar ltac:(lia) ltac:(lia)) as (r0 & R1 & R2). rewrite R1, R2. cbn [bind].
  rewrite !wr_ok by (rewrite zlen_repeat; lia). cbn [bind]. set (m := tns_order dt) in *.
  set (step := fun (r : list F) (p : Z) (st : list F * list F * F) => let '(a0, a1, e) := st in
    do s <- levinson_step fl r a0 a1 (2 * p + 1) e; let '(a1, e) := s in
    do s <- levinson_step fl r a1 a0 (2 * p + 2) e; let '(a0, e) := s in Some (a0, a1, e)).
  destruct (for_inv2 (fun p (s t : list F * list F * F) => zlen (fst (fst s)) = 9 /\ zlen (snd (fst s)) = 9 /\ zlen (snd (fst t)) = 9 /\
      agree 1 (2 * p + 1) (fst (fst s)) (fst (fst t)) /\ snd s = snd t) (step r1) (step r2) 0 (m / 2)
      (upd (repeat j1 9) 0 (f_z fl 1), repeat j1 9, r0) (upd (repeat j2 9) 0 (f_z fl 1), repeat j2 9, r0)) as (s & t & S1 & S2 & La & _ & _ & Ag & Ee).
  - apply Z.div_pos; lia.
  - cbn [fst snd]. rewrite !upd_len, !zlen_repeat. spl; try reflexivity. split; [rewrite !upd_len; reflexivity|]. intros i Hi. lia.
  - intros p [[a0 a1] e] [[b0 b1] e'] Hp (L1 & L2 & L3 & Ag & Ee). cbn [fst snd] in *. subst e'. unfold step.
    assert (Hp2 : 2 * p + 2 <= m) by (pose proof (Z.mul_div_le m 2 ltac:(lia)); lia).
    pose proof (proj1 Ag) as L4.
    destruct (levinson_step_ok r1 r2 a0 b0 a1 b1 (2 * p + 1) e (m + 1)) as (a1' & b1' & e1 & P1 & P2 & P3 & P4); try assumption; try lia.
    rewrite P1, P2. cbn [bind]. pose proof (proj1 P4). replace (2 * p + 1 + 1) with (2 * p + 2) in P4 by lia.
    destruct (levinson_step_ok r1 r2 a1' b1' a0 b0 (2 * p + 2) e1 (m + 1)) as (a0' & b0' & e2 & Q1 & Q2 & Q3 & Q4); try assumption; try lia.
    rewrite Q1, Q2. cbn [bind]. do 2 eexists. split; [reflexivity|]. split; [reflexivity|]. cbn [fst snd].
    spl; try assumption; try lia; try reflexivity. apply (agree_sub 1 (2 * p + 2 + 1)); [lia|lia|exact Q4].
  - change (for_ 0 (m / 2) _ (upd (repeat j1 9) 0 (f_z fl 1), repeat j1 9, r0)) with (for_ 0 (m / 2) (step r1) (upd (repeat j1 9) 0 (f_z fl 1), repeat j1 9, r0)).
    change (for_ 0 (m / 2) _ (upd (repeat j2 9) 0 (f_z fl 1), repeat j2 9, r0)) with (for_ 0 (m / 2) (step r2) (upd (repeat j2 9) 0 (f_z fl 1), repeat j2 9, r0)).
    rewrite S1, S2. cbn [bind]. destruct s as [[a0 a1] e], t as [[b0 b1] e']. cbn [fst snd] in *. subst e'.
    do 3 eexists. split; [reflexivity|]. split; [reflexivity|]. split; [exact La|]. apply (agree_sub 1 (2 * (m / 2) + 1)); [lia| |exact Ag].
    destruct HO as [->| ->]; cbn; lia.
Qed.

Lemma lpc_weighting_ok g a1 a2 n : 1 <= n <= 9 -> zlen a1 = 9 -> agree 1 n a1 a2 ->
  exists a1' a2', lpc_weighting fl g a1 = Some a1' /\ lpc_weighting fl g a2 = Some a2' /\ zlen a1' = 9 /\ agree 1 n a1' a2'.
Proof.
  intros Hn La Ag. unfold lpc_weighting. set (gamma := f_sub fl _ _).
  set (step := fun (i : Z) (st : list F * F) => let '(a, g) := st in let g := f_mul fl g gamma in do v <- rd a i; do a <- wr a i (f_mul fl v g); Some (a, g)).
  destruct (for_inv2 (fun i (s t : list F * F) => zlen (fst s) = 9 /\ agree 1 n (fst s) (fst t) /\ snd s = snd t) step step 1 9 (a1, f_z fl 1) (a2, f_z fl 1)) as (s & t & S1 & S2 & L & A & E); [lia|auto| |].
  - intros i [s g1] [t g2] Hi (L & A & E). cbn [fst snd] in *. subst g2. unfold step. pose proof (proj1 A) as Lt.
    destruct (rd_ok s i ltac:(lia)) as (v & V). destruct (rd_ok t i ltac:(lia)) as (v' & V'). rewrite V, V'. cbn [bind]. rewrite !wr_ok by lia. cbn [bind].
    do 2 eexists. split; [reflexivity|]. split; [reflexivity|]. cbn [fst snd]. split; [rewrite upd_len; exact L|]. split; [|reflexivity].
    split; [rewrite !upd_len; exact Lt|]. intros j Hj. rewrite !rd_upd by lia. destruct (i =? j) eqn:Eij; [|apply A; lia].
    assert (i = j) by lia. subst j. destruct A as [_ A]. specialize (A i Hj). rewrite V, V' in A. injection A as <-. reflexivity.
  - rewrite S1, S2. cbn [bind]. do 2 eexists. split; [reflexivity|]. split; [reflexivity|]. auto.
Qed.

Lemma lpc_reflection_ok dt a1 a2 : zlen a1 = 9 -> agree 1 (tns_order dt + 1) a1 a2 ->
  exists r1 r2, lpc_reflection fl j1 a1 (tns_order dt) = Some r1 /\ lpc_reflection fl j2 a2 (tns_order dt) = Some r2 /\
    zlen r1 = 8 /\ agree 0 (tns_order dt) r1 r2.
Proof.
  intros La Ag. pose proof (order_cases dt) as HO. set (m := tns_order dt) in *. unfold lpc_reflection.
  destruct (agree_rd _ _ _ _ m Ag ltac:(lia) ltac:(lia)) as (am & E1 & E2). rewrite E1, E2. cbn [bind].
  rewrite !wr_ok by (rewrite zlen_repeat; lia). cbn [bind].
  set (g := fun (a : list F) (i : Z) (b : list F) => do x <- rd a (1 + i); do y <- rd a (m - 1 - i);
    wr b i (f_div fl (f_sub fl x (f_mul fl am y)) (f_sub fl (f_z fl 1) (f_mul fl am am)))).
  destruct (for_inv2 (fun i (s t : list F) => zlen s = 7 /\ agree 0 i s t) (g a1) (g a2) 0 (m - 1) (repeat j1 7) (repeat j2 7)) as (b1 & b2 & B1 & B2 & LB & AB); [lia| | |].
  { split; [reflexivity|]. split; [reflexivity|lia]. }
  { intros i s t Hi [Ls As]. unfold g. destruct (agree_rd _ _ _ _ (1 + i) Ag ltac:(lia) ltac:(lia)) as (x & X1 & X2). rewrite X1, X2. cbn [bind].
    destruct (agree_rd _ _ _ _ (m - 1 - i) Ag ltac:(lia) ltac:(lia)) as (y & Y1 & Y2). rewrite Y1, Y2. cbn [bind]. pose proof (proj1 As).
    rewrite !wr_ok by lia. do 2 eexists. split; [reflexivity|]. split; [reflexivity|]. split; [rewrite upd_len; exact Ls|]. apply agree_upd; [exact As|lia]. }
  change (for_ 0 (m - 1) _ (repeat j1 7)) with (for_ 0 (m - 1) (g a1) (repeat j1 7)).
  change (for_ 0 (m - 1) _ (repeat j2 7)) with (for_ 0 (m - 1) (g a2) (repeat j2 7)). rewrite B1, B2. cbn [bind].
  match goal with |- context [for_down _ _ ?hh _] => set (h := hh) end.
  destruct (for_down_inv2 (fun k (s t : list F * list F * list F) =>
      zlen (fst (fst s)) = 8 /\ agree (k + 1) m (fst (fst s)) (fst (fst t)) /\
      zlen (snd (fst s)) = 7 /\ zlen (snd (fst t)) = 7 /\ zlen (snd s) = 7 /\ agree 0 (k + 1) (snd s) (snd t)) h h (m - 2) 1
      (upd (repeat j1 8) (m - 1) am, repeat j1 7, b1) (upd (repeat j2 8) (m - 1) am, repeat j2 7, b2)) as (s & t & S1 & S2 & LR & AR & _ & _ & L5 & A5).
  - lia.
  - cbn [fst snd]. replace (m - 2 + 1) with (m - 1) by lia. spl; try (rewrite ?upd_len, ?zlen_repeat; reflexivity).
    + split; [rewrite !upd_len; reflexivity|].
      intros i Hi. rewrite !rd_upd by (rewrite zlen_repeat; lia). replace (m - 1 =? i) with true by lia. reflexivity.
    + exact LB.
    + exact AB.
  - intros k [[rc c0] c1] [[rc' d0] d1] Hk (L1 & A1 & L2 & L3 & L4 & A4). cbn [fst snd] in *. unfold h.
    destruct (agree_rd _ _ _ _ k A4 ltac:(lia) ltac:(lia)) as (rk & K1 & K2). rewrite K1, K2. cbn [bind]. pose proof (proj1 A1). rewrite !wr_ok by lia. cbn [bind].
    set (q := fun (b : list F) (i : Z) (b1 : list F) => do x <- rd b i; do y <- rd b (k - 1 - i); wr b1 i (f_div fl (f_sub fl x (f_mul fl rk y)) (f_sub fl (f_z fl 1) (f_mul fl rk rk)))).
    destruct (for_inv2 (fun i (s t : list F) => zlen s = 7 /\ agree 0 i s t) (q c1) (q d1) 0 k c0 d0) as (e1 & e2 & V1 & V2 & LV & AV); [lia| | |].
    { split; [exact L2|]. split; [lia|lia]. }
    { intros i s t Hi [Ls As]. unfold q. destruct (agree_rd _ _ _ _ i A4 ltac:(lia) ltac:(lia)) as (x & X1 & X2). rewrite X1, X2. cbn [bind].
      destruct (agree_rd _ _ _ _ (k - 1 - i) A4 ltac:(lia) ltac:(lia)) as (y & Y1 & Y2). rewrite Y1, Y2. cbn [bind]. pose proof (proj1 As).
      rewrite !wr_ok by lia. do 2 eexists. split; [reflexivity|]. split; [reflexivity|]. split; [rewrite upd_len; exact Ls|]. apply agree_upd; [exact As|lia]. }
    change (for_ 0 k _ c0) with (for_ 0 k (q c1) c0). change (for_ 0 k _ d0) with (for_ 0 k (q d1) d0). rewrite V1, V2. cbn [bind].
    do 2 eexists. split; [reflexivity|]. split; [reflexivity|]. cbn [fst snd]. replace (k - 1 + 1) with k by lia.
    split; [rewrite upd_len; exact L1|]. split; [apply agree_upd_down; [exact A1|lia]|]. pose proof (proj1 A4). spl; try assumption; try lia.
  - rewrite S1, S2. cbn [bind]. destruct s as [[rc c0] c1], t as [[rc' d0] d1]. cbn [fst snd] in *. replace (1 - 1 + 1) with 1 in * by lia.
    destruct (agree_rd _ _ _ _ 0 A5 ltac:(lia) ltac:(lia)) as (r0 & R1 & R2). rewrite R1, R2. cbn [bind]. pose proof (proj1 AR). rewrite !wr_ok by lia.
    do 2 eexists. split; [reflexivity|]. split; [reflexivity|]. split; [rewrite upd_len; exact LR|]. apply (agree_upd_down 0); [|lia]. exact AR.
Qed.

(** ** Quantization *)

Lemma rc_search_range m n : forall q, 0 <= q -> q + Z.of_nat n <= 8 -> exists q', rc_search fl n m q = Some q' /\ q <= q' <= q + Z.of_nat n.
Proof.
  induction n as [|n IH]; intros q H1 H2; [exists q; split; [reflexivity|lia]|]. cbn [rc_search]. unfold rc_ge.
  destruct (rd_ok tns_q_thr q) as (t & T); [change (zlen tns_q_thr) with 8; lia|]. rewrite T. cbn [bind].
  destruct (f_le fl (f_dy fl t 15) m).
  - destruct (IH (q + 1)) as (q' & E & R); [lia|lia|]. exists q'. split; [exact E|lia].
  - exists q. split; [reflexivity|lia].
Qed.

Lemma quantize_rc1_ok v : exists q, quantize_rc1 fl v = Some q /\ -8 <= q <= 8.
Proof.
  unfold quantize_rc1, rc_ge. destruct (rd_ok tns_q_thr 4) as (t & T); [change (zlen tns_q_thr) with 8; lia|]. rewrite T. cbn [bind].
  set (b := f_le fl (f_dy fl t 15) (f_abs fl v)).
  destruct (rc_search_range (f_abs fl v) 4 (4 * b2z b)) as (q & E & R); [destruct b; cbn; lia|destruct b; cbn; lia|].
  rewrite E. cbn [bind]. eexists. split; [reflexivity|]. destruct (f_lt fl v (f_z fl 0)); destruct b; cbn [b2z] in R; lia.
Qed.

(** The order leaves the trailing zeros out, and nothing else. *)
Definition last_order (n : Z) (q : list Z) (order : Z) : Prop :=
  0 <= order <= n /\ (forall i, order <= i < zlen q -> rd q i = Some 0) /\ (order = 0 \/ exists v, rd q (order - 1) = Some v /\ v <> 0).

Lemma rd_firstn {A} (l : list A) n i : 0 <= i < n -> rd (firstn (Z.to_nat n) l) i = rd l i.
Proof.
  intros H. unfold rd. destruct (i <? 0); [reflexivity|]. assert (K : (Z.to_nat i < Z.to_nat n)%nat) by lia. revert K.
  generalize (Z.to_nat i) as a, (Z.to_nat n) as b. clear. induction l as [|v l IH]; intros a [|b] K; try lia; [reflexivity|].
  destruct a; [reflexivity|]. cbn. apply IH. lia.
Qed.
Lemma rd_app_l {A} (l : list A) v i : 0 <= i < zlen l -> rd (l ++ [v]) i = rd l i.
Proof. intros H. unfold rd, zlen in *. destruct (i <? 0); [reflexivity|]. apply nth_error_app1. lia. Qed.
Lemma rd_app_r {A} (l : list A) v : rd (l ++ [v]) (zlen l) = Some v.
Proof. unfold rd, zlen. destruct (Z.of_nat (length l) <? 0) eqn:E; [lia|]. rewrite Nat2Z.id, nth_error_app2 by lia. rewrite Nat.sub_diag. reflexivity. Qed.
Lemma zlen_snoc {A} (l : list A) v : zlen (l ++ [v]) = zlen l + 1.
Proof. unfold zlen. rewrite app_length. cbn. lia. Qed.

Lemma quantize_rc_ok r1 r2 m : 0 < m <= 8 -> m <= zlen r1 -> agree 0 m r1 r2 ->
  exists order q, quantize_rc fl r1 m = Some (order, q) /\ quantize_rc fl r2 m = Some (order, q) /\ zlen q = m /\
    Forall (fun c => -8 <= c <= 8) q /\ last_order m q order.
Proof.
  intros Hm Lr Ag. unfold quantize_rc.
  set (step := fun (r : list F) (i : Z) (st : Z * list Z) => let '(order, rc_q) := st in do v <- rd r i; do q <- quantize_rc1 fl v;
    Some (if q =? 0 then order - 1 else m, rc_q ++ [q])).
  destruct (for_inv2 (fun i (s t : Z * list Z) => s = t /\ zlen (snd s) = i /\ Forall (fun c => -8 <= c <= 8) (snd s) /\
      m - i <= fst s <= m /\ (forall j, fst s - (m - i) <= j < i -> rd (snd s) j = Some 0) /\
      (fst s = m - i \/ exists v, rd (snd s) (fst s - (m - i) - 1) = Some v /\ v <> 0)) (step r1) (step r2) 0 m (m, []) (m, [])) as (s & t & S1 & S2 & <- & L & FA & O1 & O2 & O3).
  - lia.
  - spl; try reflexivity; cbn [fst snd]; try lia; try constructor.
  - intros i [o q] [o' q'] Hi (E & L & FA & O1 & O2 & O3). injection E as <- <-. cbn [fst snd] in *. unfold step.
    destruct (agree_rd _ _ _ _ i Ag ltac:(lia) ltac:(lia)) as (v & V1 & V2). rewrite V1, V2. cbn [bind].
    destruct (quantize_rc1_ok v) as (c & C1 & C2). rewrite C1. cbn [bind]. do 2 eexists. split; [reflexivity|]. split; [reflexivity|].
    split; [reflexivity|]. cbn [fst snd]. split; [rewrite zlen_snoc; lia|]. split; [apply Forall_app; auto|].
    destruct (c =? 0) eqn:Z0.
    + split; [lia|]. split.
      * intros j Hj. destruct (Z.eq_dec j i) as [->|N]; [replace i with (zlen q) by lia; rewrite rd_app_r; f_equal; lia|].
        rewrite rd_app_l by lia. apply O2. lia.
      * destruct O3 as [O3|(w & W1 & W2)]; [left; lia|right]. exists w. split; [|exact W2]. pose proof (rd_range _ _ _ W1).
        replace (o - 1 - (m - (i + 1)) - 1) with (o - (m - i) - 1) by lia. rewrite rd_app_l by lia. exact W1.
    + split; [lia|]. split; [lia|]. right. exists c. split; [|lia]. replace (m - (m - (i + 1)) - 1) with (zlen q) by lia. apply rd_app_r.
  - destruct s as [order q]. cbn [fst snd] in *. exists order, q. split; [exact S1|]. split; [exact S2|]. split; [exact L|]. split; [exact FA|].
    replace (order - (m - m)) with order in * by lia. split; [lia|]. split; [intros i Hi; apply O2; lia|]. destruct O3 as [O3|O3]; [left; lia|right; exact O3].
Qed.

Lemma unquantize_rc_ok q order r1 r2 n : Forall (fun c => -8 <= c <= 8) q -> 0 <= order <= zlen q -> order <= n <= zlen r1 -> agree 0 n r1 r2 ->
  exists r1' r2', unquantize_rc fl q order r1 = Some r1' /\ unquantize_rc fl q order r2 = Some r2' /\ zlen r1' = zlen r1 /\ agree 0 n r1' r2'.
Proof.
  intros FA Ho Hn Ag. unfold unquantize_rc. match goal with |- context [for_ _ _ ?gg _] => set (g := gg) end.
  destruct (for_inv2 (fun i (s t : list F) => zlen s = zlen r1 /\ agree 0 n s t) g g 0 order r1 r2) as (s & t & S1 & S2 & L & A); [lia|auto| |eauto 8].
  intros i s t Hi [L A]. unfold g. destruct (rd_ok q i ltac:(lia)) as (c & C). rewrite C. cbn [bind].
  rewrite Forall_forall in FA. pose proof (FA _ (rd_In _ _ _ C)).
  destruct (rd_ok tns_q_inv (Z.abs c)) as (v & V); [change (zlen tns_q_inv) with 9; lia|]. rewrite V. cbn [bind]. pose proof (proj1 A). rewrite !wr_ok by lia.
  do 2 eexists. split; [reflexivity|]. split; [reflexivity|]. split; [rewrite upd_len; exact L|]. apply agree_upd_in; [exact A|lia].
Qed.

(** A filter of the analysis: the quantized coefficients are the same whatever the array
    elements without initial value are, and so are the [order] coefficients in use. *)
Definition trimmed (q : list Z) : Prop := q = [] \/ exists v, rd q (zlen q - 1) = Some v /\ v <> 0.

Lemma analyze_filter_ok dt bw nbytes nn x f : tns_cfg dt bw -> tns_end dt bw <= zlen x -> 0 <= f < nfil dt bw ->
  exists q rc1 rc2, tns_analyze_filter fl j1 dt bw nbytes nn x f = Some (q, rc1) /\ tns_analyze_filter fl j2 dt bw nbytes nn x f = Some (q, rc2) /\
    zlen q <= tns_order dt /\ Forall (fun c => -8 <= c <= 8) q /\ trimmed q /\ zlen rc1 = 8 /\ agree 0 (zlen q) rc1 rc2 /\
    exists r0, unquantize_rc fl q (zlen q) r0 = Some rc1 /\ zlen r0 = 8.
Proof.
  intros C L Hf. pose proof (order_cases dt) as HO. unfold tns_analyze_filter. fold (tns_order dt).
  destruct (autocorr_ok dt bw x f C L Hf) as (r1 & r2 & R1 & R2 & Lr & Ar). rewrite R1, R2. cbn [bind].
  destruct (levinson_ok dt r1 r2 Lr Ar) as (a1 & a2 & g & A1 & A2 & La & Aa). rewrite A1, A2. cbn [bind].
  destruct (nn || f_le fl g (f_dy fl 3 1)) eqn:E0.
  - exists [], (repeat j1 8), (repeat j2 8). split; [reflexivity|]. split; [reflexivity|]. split; [unfold zlen; cbn; lia|].
    split; [constructor|]. split; [left; reflexivity|]. split; [reflexivity|]. split; [split; [reflexivity|unfold zlen; cbn; lia]|].
    exists (repeat j1 8). split; reflexivity.
  - assert (W : exists a1' a2',
        (if resolve_lpc_weighting dt nbytes && f_lt fl g (f_z fl 2) then lpc_weighting fl g a1 else Some a1) = Some a1' /\
        (if resolve_lpc_weighting dt nbytes && f_lt fl g (f_z fl 2) then lpc_weighting fl g a2 else Some a2) = Some a2' /\
        zlen a1' = 9 /\ agree 1 (tns_order dt + 1) a1' a2').
    { destruct (resolve_lpc_weighting dt nbytes && f_lt fl g (f_z fl 2)); [|eauto 8]. apply lpc_weighting_ok; [lia|exact La|exact Aa]. }
    destruct W as (a1' & a2' & W1 & W2 & Lw & Aw). rewrite W1, W2. cbn [bind].
    destruct (lpc_reflection_ok dt a1' a2' Lw Aw) as (k1 & k2 & K1 & K2 & Lk & Ak). rewrite K1, K2. cbn [bind].
    destruct (quantize_rc_ok k1 k2 (tns_order dt)) as (order & q & Q1 & Q2 & Lq & FA & O1 & O2 & O3); [lia|lia|exact Ak|]. rewrite Q1, Q2. cbn [bind].
    destruct (unquantize_rc_ok q order k1 k2 (tns_order dt)) as (u1 & u2 & U1 & U2 & Lu & Au); [exact FA|lia|lia|exact Ak|]. rewrite U1, U2. cbn [bind].
    assert (Lf : zlen (firstn (Z.to_nat order) q) = order) by (unfold zlen in *; rewrite firstn_length; lia).
    assert (Rf : forall i, 0 <= i < order -> rd (firstn (Z.to_nat order) q) i = rd q i).
    { intros i Hi. apply rd_firstn. lia. }
    exists (firstn (Z.to_nat order) q), u1, u2. rewrite Lf. spl; try reflexivity.
    + lia.
    + apply Forall_forall. intros c Hc. rewrite Forall_forall in FA. apply FA. rewrite <- (firstn_skipn (Z.to_nat order) q). apply in_or_app. auto.
    + destruct O3 as [->|(v & V1 & V2)]; [left; reflexivity|right]. exists v. rewrite Lf. split; [|exact V2].
      pose proof (rd_range _ _ _ V1). rewrite Rf by lia. exact V1.
    + lia.
    + apply (agree_sub 0 (tns_order dt)); [lia|lia|exact Au].
    + exists k1. split; [|exact Lk]. rewrite <- U1. unfold unquantize_rc, for_. replace (order - 0) with order by lia.
      assert (G : forall n i r, 0 <= i -> i + Z.of_nat n <= order ->
        loop n (fun i0 rc => do q0 <- rd (firstn (Z.to_nat order) q) i0; do t <- rd tns_q_inv (Z.abs q0); wr rc i0 (if q0 <? 0 then f_opp fl (f_dy fl t 15) else f_dy fl t 15)) i r =
        loop n (fun i0 rc => do q0 <- rd q i0; do t <- rd tns_q_inv (Z.abs q0); wr rc i0 (if q0 <? 0 then f_opp fl (f_dy fl t 15) else f_dy fl t 15)) i r).
      { induction n as [|n IH]; intros i r Hi Hn; [reflexivity|]. cbn [loop]. rewrite Rf by lia.
        destruct (do q0 <- rd q i; do t <- rd tns_q_inv (Z.abs q0); wr r i (if q0 <? 0 then f_opp fl (f_dy fl t 15) else f_dy fl t 15)); [|reflexivity]. cbn [bind]. apply IH; lia. }
      apply G; lia.
Qed.

End Access.
