(** * TNS filters: the inverse filter undoes the forward filter *)
From Coq Require Import ZArith List Bool Lia ZifyBool Ring.
From Verif Require Import Base BaseProofs ConfigModel SideModel ShapeTables FloatOps LoopProofs TnsModel TnsProofs.
Import ListNotations.
Local Open Scope Z_scope.

Lemma tns_nf_check dt bw : tns_cfg dt bw ->
  0 < 3 * (1 + dt) <= tns_nf dt bw /\ tns_nf dt bw * nfil dt bw <= tns_end dt bw.
Proof.
  intros C. pose proof (all_cfg (fun dt bw => (0 <? 3 * (1 + dt)) && (3 * (1 + dt) <=? tns_nf dt bw) && (tns_nf dt bw * nfil dt bw <=? tns_end dt bw))) as H.
  specialize (H ltac:(vm_compute; reflexivity) dt bw C). cbv beta in H. lia.
Qed.

(** Start of a filter. *)
Definition tns_start (dt bw f : Z) : Z := if f =? 0 then 3 * (1 + dt) else tns_nf dt bw * f.
Lemma start_end dt bw f : tns_cfg dt bw -> 0 <= f < nfil dt bw -> 0 < tns_start dt bw f <= tns_nf dt bw * (1 + f) /\ tns_nf dt bw * (1 + f) <= tns_end dt bw.
Proof.
  intros C Hf. pose proof (tns_nf_check dt bw C). pose proof (nfil_cases dt bw). unfold tns_start. destruct (f =? 0) eqn:E; [assert (f = 0) by lia; subst f; nia|]. assert (f = 1) by lia. subst f. nia.
Qed.

Section Access.
Context {F : Type} (fl : fops F).

Lemma forward_coeff_ok order rc1 rc2 i s x : 0 <= order <= 8 -> zlen rc1 = 8 -> agree 0 order rc1 rc2 -> zlen s = 8 -> 0 <= i < zlen x ->
  exists s' v, forward_coeff fl order rc1 i (s, x) = Some (s', upd x i v) /\ forward_coeff fl order rc2 i (s, x) = Some (s', upd x i v) /\ zlen s' = 8.
Proof.
  intros Ho Lr Ag Ls Hi. unfold forward_coeff. destruct (rd_ok x i Hi) as (xi & X). rewrite X. cbn [bind].
  destruct (for_inv2 (fun _ (a b : list F * F * F) => a = b /\ zlen (fst (fst a)) = 8) (forward_stage fl rc1) (forward_stage fl rc2) 0 order (s, xi, xi) (s, xi, xi)) as (t & t' & T1 & T2 & <- & L).
  - lia.
  - auto.
  - intros k [[a s1] v] b Hk [<- L]. cbn [fst] in L. unfold forward_stage. destruct (rd_ok a k ltac:(lia)) as (s0 & S0). rewrite S0. cbn [bind].
    rewrite wr_ok by lia. cbn [bind]. destruct (agree_rd _ _ _ _ k Ag ltac:(lia) ltac:(lia)) as (r & R1 & R2). rewrite R1, R2. cbn [bind].
    do 2 eexists. split; [reflexivity|]. split; [reflexivity|]. split; [reflexivity|]. cbn [fst]. rewrite upd_len. exact L.
  - rewrite T1, T2. cbn [bind]. destruct t as [[s' s1] v]. cbn [fst] in L. rewrite wr_ok by lia. cbn [bind]. exists s', v. auto.
Qed.

(** The filters of two runs: same orders, same coefficients in use. *)
Definition same_filter (p p' : Z * list F) : Prop :=
  fst p = fst p' /\ 0 <= fst p <= 8 /\ zlen (snd p) = 8 /\ agree 0 (fst p) (snd p) (snd p').

Lemma Forall2_rd {A B} (R : A -> B -> Prop) l l' i : Forall2 R l l' -> 0 <= i < zlen l -> exists a b, rd l i = Some a /\ rd l' i = Some b /\ R a b.
Proof.
  intros H Hi. unfold rd, zlen in *. destruct (i <? 0) eqn:E; [lia|]. assert (K : (Z.to_nat i < length l)%nat) by lia. clear Hi E. revert K. generalize (Z.to_nat i).
  induction H; intros n K; cbn in K; [lia|]. destruct n as [|n]; [cbn; eauto|]. cbn. apply IHForall2. lia.
Qed.

(** Accesses, and coefficients out of the filters. *)
Lemma forward_filtering_ok dt bw fs fs' x : tns_cfg dt bw -> tns_end dt bw <= zlen x -> Forall2 same_filter fs fs' -> zlen fs = nfil dt bw ->
  exists y, forward_filtering fl dt bw fs x = Some y /\ forward_filtering fl dt bw fs' x = Some y /\ zlen y = zlen x /\
    forall i, i < 3 * (1 + dt) \/ tns_end dt bw <= i -> rd y i = rd x i.
Proof.
  intros C L Hs Lf. unfold forward_filtering. match goal with |- context [for_ 0 _ ?gg _] => set (g := gg) end.
  match goal with |- exists y, _ /\ (do st <- for_ 0 _ ?gg _; _) = _ /\ _ => set (g' := gg) end. fold (nfil dt bw).
  destruct (for_inv2 (fun _ (a b : list F * list F) => a = b /\ zlen (fst a) = 8 /\ zlen (snd a) = zlen x /\
     forall i, i < 3 * (1 + dt) \/ tns_end dt bw <= i -> rd (snd a) i = rd x i) g g' 0 (nfil dt bw) (repeat (f_z fl 0) 8, x) (repeat (f_z fl 0) 8, x)) as (s & t & S1 & S2 & <- & L1 & L2 & R).
  - pose proof (nfil_cases dt bw). lia.
  - cbn [fst snd]. spl; auto.
  - intros f [s y] b Hf (<- & L1 & L2 & R). cbn [fst snd] in *. unfold g, g'. destruct (Forall2_rd _ _ _ f Hs ltac:(lia)) as ([o rc] & [o' rc'] & P1 & P2 & E & Ho & Lr & Ag).
    cbn [fst snd] in *. subst o'. rewrite P1, P2. cbn [bind]. destruct (o =? 0); [exists (s, y), (s, y); cbn [fst snd]; auto 8|].
    destruct (start_end dt bw f C Hf) as (B1 & B2). fold (tns_start dt bw f).
    apply (for_inv2 (fun _ (a b : list F * list F) => a = b /\ zlen (fst a) = 8 /\ zlen (snd a) = zlen x /\
     forall i, i < 3 * (1 + dt) \/ tns_end dt bw <= i -> rd (snd a) i = rd x i)); [lia|auto|].
    intros i [s' y'] b Hi (<- & M1 & M2 & R'). cbn [fst snd] in *.
    destruct (forward_coeff_ok o rc rc' i s' y') as (s2 & v & V1 & V2 & V3); try assumption; [lia|]. rewrite V1, V2.
    do 2 eexists. split; [reflexivity|]. split; [reflexivity|]. cbn [fst snd]. split; [reflexivity|]. split; [exact V3|]. split; [rewrite upd_len; exact M2|].
    intros j Hj. rewrite rd_upd by lia. destruct (i =? j) eqn:E; [|apply R'; exact Hj]. exfalso.
    pose proof (tns_nf_check dt bw C). assert (3 * (1 + dt) <= tns_start dt bw f) by (unfold tns_start; destruct (f =? 0) eqn:E0; [lia|nia]). lia.
  - rewrite S1, S2. cbn [bind]. exists (snd s). auto.
Qed.
End Access.

(** ** Ring *)
Section Inverse.
Context {F : Type} (fl : fops F).
Context (Rg : ring_theory (f_z fl 0) (f_z fl 1) (f_add fl) (f_mul fl) (f_sub fl) (f_opp fl) (@eq F)).
Add Ring Fring : Rg.
Local Notation zero := (f_z fl 0).

(** The inverse filter on a value. *)
Definition inv_scalar (rc s : list F) (y : F) : option (list F * F) :=
  do s7 <- rd s 7; do r7 <- rd rc 7;
  do t <- for_down 6 0 (inverse_stage fl rc) (s, f_sub fl y (f_mul fl s7 r7));
  let '(s, xi) := t in do s <- wr s 0 xi; Some (s, xi).

Lemma list8 {A} (l : list A) : zlen l = 8 -> exists a b c d e f g h, l = [a; b; c; d; e; f; g; h].
Proof.
  intros H. do 8 (destruct l; [cbv in H; discriminate|]). destruct l; [|unfold zlen in H; cbn in H; lia].
  do 8 eexists. reflexivity.
Qed.

Ltac eqs H k := pose proof (H k ltac:(lia)).
Lemma scalar_inverse order rcf rci sf si x : 0 <= order <= 8 ->
  zlen rcf = 8 -> zlen rci = 8 -> zlen sf = 8 -> zlen si = 8 ->
  agree 0 order rcf rci -> (forall k, order <= k < 8 -> rd rci k = Some zero) -> agree 0 order sf si ->
  exists sf' e y si', for_ 0 order (forward_stage fl rcf) (sf, x, x) = Some (sf', e, y) /\ inv_scalar rci si y = Some (si', x) /\
    agree 0 order sf' si' /\ (forall k, order <= k < 8 -> rd sf' k = rd sf k) /\ zlen si' = 8.
Proof.
  intros Ho L1 L2 L3 L4 [_ Ar] Az [_ As].
  destruct (list8 _ L1) as (a0 & a1 & a2 & a3 & a4 & a5 & a6 & a7 & ->). destruct (list8 _ L2) as (b0 & b1 & b2 & b3 & b4 & b5 & b6 & b7 & ->).
  destruct (list8 _ L3) as (c0 & c1 & c2 & c3 & c4 & c5 & c6 & c7 & ->). destruct (list8 _ L4) as (d0 & d1 & d2 & d3 & d4 & d5 & d6 & d7 & ->).
  clear L1 L2 L3 L4.
  assert (HZ : order = 0 \/ order = 1 \/ order = 2 \/ order = 3 \/ order = 4 \/ order = 5 \/ order = 6 \/ order = 7 \/ order = 8) by lia.
  assert (Q : forall k (u v : F), (if k <? order then Some u = Some v else True) -> (k < order -> u = v)) by (intros k u v H Hk; destruct (k <? order) eqn:E; [congruence|lia]).
  assert (G : forall k, 0 <= k < 8 -> (if k <? order then rd [a0; a1; a2; a3; a4; a5; a6; a7] k = rd [b0; b1; b2; b3; b4; b5; b6; b7] k /\ rd [c0; c1; c2; c3; c4; c5; c6; c7] k = rd [d0; d1; d2; d3; d4; d5; d6; d7] k
                                      else rd [b0; b1; b2; b3; b4; b5; b6; b7] k = Some zero)).
  { intros k Hk. destruct (k <? order) eqn:E; [split; [apply Ar|apply As]; lia|apply Az; lia]. }
  clear Ar Az As Q. eqs G 0. eqs G 1. eqs G 2. eqs G 3. eqs G 4. eqs G 5. eqs G 6. eqs G 7. clear G Ho.
  repeat (destruct HZ as [->|HZ]; [|]); [..|subst order];
  cbv [Z.ltb Z.compare Pos.compare Pos.compare_cont CompOpp rd Z.to_nat Pos.to_nat Pos.iter_op Nat.add nth_error] in H, H0, H1, H2, H3, H4, H5, H6;
  repeat match goal with H : _ = _ /\ _ = _ |- _ => destruct H end;
  repeat match goal with H : Some _ = Some _ |- _ => injection H as H; try subst end;
  (do 4 eexists; split; [cbv -[f_add f_sub f_mul f_z]; reflexivity|]; split;
   [unfold inv_scalar; cbv -[f_add f_sub f_mul f_z]; match goal with |- Some (?l, ?e) = _ => replace e with x by ring end; reflexivity|]);
  (split; [split; [reflexivity|]|split; [|reflexivity]]);
  (intros k Hk; assert (E : k = 0 \/ k = 1 \/ k = 2 \/ k = 3 \/ k = 4 \/ k = 5 \/ k = 6 \/ k = 7) by lia;
   repeat (destruct E as [->|E]; [|]); [..|subst k]; try (exfalso; clear - Hk; lia); cbv -[f_add f_sub f_mul f_z]; try reflexivity; f_equal; ring).
Qed.

Lemma inverse_coeff_scalar rc i s x v s' x' : rd x i = Some v -> inv_scalar rc s v = Some (s', x') -> inverse_coeff fl rc i (s, x) = Some (s', upd x i x').
Proof.
  intros H E. unfold inverse_coeff, inv_scalar in *. rewrite H. cbn [bind]. destruct (rd s 7) as [s7|]; [|discriminate]. cbn [bind] in *.
  destruct (rd rc 7) as [r7|]; [|discriminate]. cbn [bind] in *. destruct (for_down 6 0 (inverse_stage fl rc) (s, f_sub fl v (f_mul fl s7 r7))) as [[t xi]|]; [|discriminate].
  cbn [bind] in *. destruct (wr t 0 xi) as [t'|]; [|discriminate]. cbn [bind] in *. injection E as <- <-. rewrite wr_ok by (apply rd_range in H; exact H). reflexivity.
Qed.

Lemma forward_coeff_other order rc i s x s' x' : forward_coeff fl order rc i (s, x) = Some (s', x') -> zlen x' = zlen x /\ forall j, j <> i -> rd x' j = rd x j.
Proof.
  unfold forward_coeff. destruct (rd x i) as [xi|]; [|discriminate]. cbn [bind]. destruct (for_ 0 order (forward_stage fl rc) (s, xi, xi)) as [[[t u] v]|]; [|discriminate]. cbn [bind].
  destruct (wr x i v) as [y|] eqn:W; [|discriminate]. cbn [bind]. intros [= <- <-]. apply wr_inv in W as [Hi ->]. split; [apply upd_len|].
  intros j Hj. rewrite rd_upd by exact Hi. replace (i =? j) with false by lia. reflexivity.
Qed.

Lemma forward_loop_other order rc n : forall i s x s' x', loop n (forward_coeff fl order rc) i (s, x) = Some (s', x') ->
  zlen x' = zlen x /\ forall j, j < i \/ i + Z.of_nat n <= j -> rd x' j = rd x j.
Proof.
  induction n as [|n IH]; intros i s x s' x' E; cbn [loop] in E; [injection E as <- <-; auto|].
  destruct (forward_coeff fl order rc i (s, x)) as [[s1 x1]|] eqn:E1; [|discriminate]. cbn [bind] in E.
  destruct (forward_coeff_other _ _ _ _ _ _ _ E1) as [L1 H1]. destruct (IH _ _ _ _ _ E) as [L2 H2]. split; [lia|].
  intros j Hj. rewrite H2 by lia. apply H1. lia.
Qed.

Definition filter_pair (order : Z) (rcf rci : list F) : Prop :=
  0 <= order <= 8 /\ zlen rcf = 8 /\ zlen rci = 8 /\ agree 0 order rcf rci /\ (forall k, order <= k < 8 -> rd rci k = Some zero).

Lemma inverse_loop order rcf rci n : filter_pair order rcf rci -> forall i sf si x w sf' x',
  zlen sf = 8 -> zlen si = 8 -> agree 0 order sf si -> 0 <= i -> i + Z.of_nat n <= zlen x -> zlen w = zlen x ->
  loop n (forward_coeff fl order rcf) i (sf, x) = Some (sf', x') ->
  (forall j, i <= j < i + Z.of_nat n -> rd w j = rd x' j) ->
  exists si' w', loop n (inverse_coeff fl rci) i (si, w) = Some (si', w') /\ zlen w' = zlen w /\
    (forall j, rd w' j = if (i <=? j) && (j <? i + Z.of_nat n) then rd x j else rd w j) /\
    zlen sf' = 8 /\ zlen si' = 8 /\ agree 0 order sf' si' /\ (forall k, order <= k < 8 -> rd sf' k = rd sf k).
Proof.
  intros (Ho & L1 & L2 & Ar & Az). induction n as [|n IH]; intros i sf si x w sf' x' Ls Lsi As Hi Hn Lw E Hw.
  - cbn [loop] in *. injection E as <- <-. exists si, w. spl; auto. intros j. replace ((i <=? j) && (j <? i + Z.of_nat 0)) with false by lia. reflexivity.
  - cbn [loop] in E. destruct (rd_ok x i ltac:(lia)) as (v & V).
    destruct (scalar_inverse order rcf rci sf si v Ho L1 L2 Ls Lsi Ar Az As) as (sf1 & e & y & si1 & F1 & I1 & A1 & O1 & L3).
    unfold forward_coeff in E at 1. rewrite V in E. cbn [bind] in E. rewrite F1 in E. cbn [bind] in E. rewrite wr_ok in E by lia. cbn [bind] in E.
    pose proof (forward_loop_other _ _ _ _ _ _ _ _ E) as [_ Hx].
    assert (Wi : rd w i = Some y). { rewrite Hw by lia. rewrite Hx by lia. rewrite rd_upd by lia. rewrite Z.eqb_refl. reflexivity. }
    assert (L5 : zlen sf1 = 8) by (pose proof (proj1 A1); lia).
    destruct (IH (i + 1) sf1 si1 (upd x i y) (upd w i v) sf' x' L5 L3 A1) as (si' & w' & E2 & L6 & W6 & L7 & L8 & A8 & O8).
    + lia.
    + rewrite upd_len. lia.
    + rewrite !upd_len. lia.
    + exact E.
    + intros j Hj. rewrite rd_upd by lia. replace (i =? j) with false by lia. apply Hw. lia.
    + exists si', w'. cbn [loop]. rewrite (inverse_coeff_scalar _ _ _ _ _ _ _ Wi I1). cbn [bind]. rewrite upd_len in L6. spl; try assumption.
      * intros j. rewrite W6. rewrite !rd_upd by lia. destruct (i =? j) eqn:E3.
        -- assert (j = i) by lia. subst j. replace ((i + 1 <=? i) && (i <? i + 1 + Z.of_nat n)) with false by lia.
           replace ((i <=? i) && (i <? i + Z.of_nat (Datatypes.S n))) with true by lia. symmetry. exact V.
        -- replace ((i + 1 <=? j) && (j <? i + 1 + Z.of_nat n)) with ((i <=? j) && (j <? i + Z.of_nat (Datatypes.S n))) by lia. reflexivity.
      * intros k Hk. rewrite O8 by exact Hk. apply O1. exact Hk.
Qed.

(** ** All the filters of a frame *)

Definition pair_ok (p p' : Z * list F) : Prop := fst p = fst p' /\ filter_pair (fst p) (snd p) (snd p').

Lemma clear_state s order : zlen s = 8 -> 0 <= order <= 8 ->
  exists s', for_down 7 order (fun k s => wr s k zero) s = Some s' /\ zlen s' = 8 /\ (forall k, k < order -> rd s' k = rd s k) /\ (forall k, order <= k < 8 -> rd s' k = Some zero).
Proof.
  intros L Ho. destruct (for_down_inv (fun i t => zlen t = 8 /\ (forall k, k <= i -> rd t k = rd s k) /\ (forall k, i < k < 8 -> rd t k = Some zero)) (fun k s => wr s k zero) 7 order s) as (t & E & L1 & H1 & H2).
  - lia.
  - spl; [exact L|reflexivity|lia].
  - intros i t Hi (L1 & H1 & H2). rewrite wr_ok by lia. eexists. split; [reflexivity|]. spl.
    + rewrite upd_len. exact L1.
    + intros k Hk. rewrite rd_upd by lia. replace (i =? k) with false by lia. apply H1. lia.
    + intros k Hk. rewrite rd_upd by lia. destruct (i =? k) eqn:E; [reflexivity|]. apply H2. lia.
  - exists t. spl; auto; intros k Hk; [apply H1|apply H2]; lia.
Qed.

(** The step of the two loops on the filters. *)
Definition fwd_step (dt bw : Z) (fs : list (Z * list F)) (f : Z) (st : list F * list F) : option (list F * list F) :=
  let '(s, x) := st in do p <- rd fs f; let '(order, rc) := p in
  if order =? 0 then Some (s, x) else for_ (tns_start dt bw f) (tns_nf dt bw * (1 + f)) (forward_coeff fl order rc) (s, x).
Definition inv_step (dt bw : Z) (fs : list (Z * list F)) (f : Z) (st : list F * list F) : option (list F * list F) :=
  let '(s, x) := st in do p <- rd fs f; let '(order, rc) := p in
  if order =? 0 then Some (s, x)
  else do st <- for_ (tns_start dt bw f) (tns_nf dt bw * (1 + f)) (inverse_coeff fl rc) (s, x);
       let '(s, x) := st in do s <- for_down 7 order (fun k s => wr s k zero) s; Some (s, x).

Lemma fwd_step_other dt bw fs f s x s' x' : tns_cfg dt bw -> 0 <= f < nfil dt bw -> fwd_step dt bw fs f (s, x) = Some (s', x') ->
  zlen x' = zlen x /\ forall j, j < tns_start dt bw f \/ tns_nf dt bw * (1 + f) <= j -> rd x' j = rd x j.
Proof.
  intros C Hf. unfold fwd_step. destruct (rd fs f) as [[o rc]|]; [|discriminate]. cbn [bind]. destruct (o =? 0); [intros [= <- <-]; auto|].
  destruct (start_end dt bw f C Hf) as [B1 B2]. intros E. destruct (forward_loop_other _ _ _ _ _ _ _ _ E) as [L H]. split; [exact L|]. intros j Hj. apply H. lia.
Qed.

(** A filter: the state of the forward filter is zero from the order on at the start of
    the first filter; nothing is asked of it after the second. *)
Lemma step_inverse dt bw fs fs' f sf s x w sf' x' : tns_cfg dt bw -> 0 <= f < nfil dt bw -> Forall2 pair_ok fs fs' -> zlen fs = nfil dt bw -> tns_end dt bw <= zlen x ->
  zlen sf = 8 -> sf = s -> zlen w = zlen x ->
  fwd_step dt bw fs f (sf, x) = Some (sf', x') ->
  (forall j, tns_start dt bw f <= j < tns_nf dt bw * (1 + f) -> rd w j = rd x' j) ->
  exists s' w', inv_step dt bw fs' f (s, w) = Some (s', w') /\ zlen w' = zlen w /\
    (forall j, rd w' j = if (tns_start dt bw f <=? j) && (j <? tns_nf dt bw * (1 + f)) then rd x j else rd w j) /\
    zlen sf' = 8 /\ (sf = repeat zero 8 -> s' = sf').
Proof.
  intros C Hf Hp Lf Lx Ls <- Lw E Hw. unfold fwd_step, inv_step in *.
  destruct (Forall2_rd _ _ _ f Hp ltac:(lia)) as ([o rc] & [o' rc'] & P1 & P2 & Eo & FP). cbn [fst snd] in *. subst o'. rewrite P1 in E. rewrite P2. cbn [bind] in *.
  destruct (start_end dt bw f C Hf) as [B1 B2]. destruct (o =? 0) eqn:O0.
  - injection E as <- <-. exists sf, w. spl; auto. intros j. destruct ((tns_start dt bw f <=? j) && (j <? tns_nf dt bw * (1 + f))) eqn:K; [|reflexivity]. apply Hw. lia.
  - unfold for_ in E |- * at 1. set (n := Z.to_nat (tns_nf dt bw * (1 + f) - tns_start dt bw f)) in *.
    assert (Hn : tns_start dt bw f + Z.of_nat n = tns_nf dt bw * (1 + f)) by (unfold n; lia).
    destruct (inverse_loop o rc rc' n FP (tns_start dt bw f) sf sf x w sf' x') as (si' & w' & E1 & L1 & W1 & L2 & L3 & A1 & O1); auto; try lia.
    { apply agree_refl. }
    { intros j Hj. apply Hw. lia. }
    rewrite E1. cbn [bind]. destruct FP as (Ho & _). destruct (clear_state si' o L3 Ho) as (s' & E2 & L4 & C1 & C2).
    rewrite E2. cbn [bind]. exists s', w'. spl; auto.
    + intros j. rewrite W1, Hn. reflexivity.
    + intros ->. apply rd_ext; [lia|]. intros k Hk. destruct (Z_lt_ge_dec k o) as [K|K].
      * rewrite C1 by exact K. symmetry. apply A1. lia.
      * rewrite C2 by lia. rewrite O1 by lia. symmetry. apply rd_repeat. lia.
Qed.

Theorem filters_inverse dt bw fs fs' x y : tns_cfg dt bw -> tns_end dt bw <= zlen x -> Forall2 pair_ok fs fs' -> zlen fs = nfil dt bw ->
  forward_filtering fl dt bw fs x = Some y -> inverse_filtering fl dt bw fs' y = Some x.
Proof.
  intros C L Hp Lf E. unfold forward_filtering, inverse_filtering in *. fold (nfil dt bw) in *.
  match type of E with (do st <- for_ 0 _ ?g _; _) = _ => change g with (fwd_step dt bw fs) in E end.
  match goal with |- (do st <- for_ 0 _ ?g _; _) = _ => change g with (inv_step dt bw fs') end.
  pose proof (tns_nf_check dt bw C) as K.
  destruct (nfil_cases dt bw) as [N|N]; rewrite N in *; unfold for_ in *.
  - change (Z.to_nat (1 - 0)) with 1%nat in *. cbn [loop] in *. destruct (fwd_step dt bw fs 0 (repeat zero 8, x)) as [[sf y1]|] eqn:E1; [|cbn [bind] in E; discriminate E]. cbn [bind snd] in E. injection E as ->.
    destruct (fwd_step_other dt bw fs 0 _ _ _ _ C ltac:(lia) E1) as [L1 H1].
    destruct (step_inverse dt bw fs fs' 0 (repeat zero 8) (repeat zero 8) x y sf y) as (s' & w' & E2 & L2 & W2 & _); auto; try lia.
    rewrite E2. cbn [bind snd]. f_equal. apply rd_ext; [lia|]. intros j Hj. rewrite W2.
    destruct ((tns_start dt bw 0 <=? j) && (j <? tns_nf dt bw * (1 + 0))) eqn:K2; [reflexivity|]. apply H1. lia.
  - change (Z.to_nat (2 - 0)) with 2%nat in *. cbn [loop] in *. destruct (fwd_step dt bw fs 0 (repeat zero 8, x)) as [[sf y1]|] eqn:E1; [|cbn [bind] in E; discriminate E]. cbn [bind] in E.
    change (0 + 1) with 1 in *. destruct (fwd_step dt bw fs 1 (sf, y1)) as [[sf2 y2]|] eqn:E2; [|cbn [bind] in E; discriminate E]. cbn [bind snd] in E. injection E as ->.
    destruct (fwd_step_other dt bw fs 0 _ _ _ _ C ltac:(lia) E1) as [L1 H1]. destruct (fwd_step_other dt bw fs 1 _ _ _ _ C ltac:(lia) E2) as [L2 H2].
    destruct (start_end dt bw 0 C ltac:(lia)) as [S1 S2]. destruct (start_end dt bw 1 C ltac:(lia)) as [S3 S4].
    assert (T1 : tns_start dt bw 1 = tns_nf dt bw * (1 + 0)) by (unfold tns_start; cbn [Z.eqb]; lia).
    destruct (step_inverse dt bw fs fs' 0 (repeat zero 8) (repeat zero 8) x y sf y1) as (s1 & w1 & I1 & M1 & W1 & N1 & Q1); auto; try lia.
    { intros j Hj. apply H2. lia. }
    rewrite I1. cbn [bind]. rewrite (Q1 eq_refl).
    destruct (step_inverse dt bw fs fs' 1 sf sf y1 w1 sf2 y) as (s2 & w2 & I2 & M2 & W2 & _); auto; try lia.
    { intros j Hj. rewrite W1. destruct ((tns_start dt bw 0 <=? j) && (j <? tns_nf dt bw * (1 + 0))) eqn:K2; [lia|]. reflexivity. }
    rewrite I2. cbn [bind snd]. f_equal. apply rd_ext; [lia|]. intros j Hj. rewrite W2.
    destruct ((tns_start dt bw 1 <=? j) && (j <? tns_nf dt bw * (1 + 1))) eqn:K2.
    + apply H1. lia.
    + rewrite W1. destruct ((tns_start dt bw 0 <=? j) && (j <? tns_nf dt bw * (1 + 0))) eqn:K3; [reflexivity|].
      rewrite H2 by lia. apply H1. lia.
Qed.
End Inverse.
