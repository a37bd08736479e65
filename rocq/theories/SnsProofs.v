(** * Proofs about the spectral noise shaping, for any float arithmetic *)
From Coq Require Import ZArith List Bool Lia.
From Verif Require Import Base ConfigModel SideModel SideSpec ShapeTables FloatOps LoopProofs TnsProofs BandModel BandProofs PvqModel PvqProofs SnsModel.
Import ListNotations.
Local Open Scope Z_scope.

(** A list is built, one element by step. *)
Lemma build_ok {A} (f : Z -> option A) a b l0 : a <= b -> (forall i, a <= i < b -> exists v, f i = Some v) ->
  exists l, for_ a b (fun i l => do v <- f i; Some (l ++ [v])) l0 = Some (l0 ++ l) /\ zlen l = b - a /\
    forall i, a <= i < b -> rd l (i - a) = f i.
Proof.
  intros Hab H.
  destruct (for_inv (fun k l => exists l', l = l0 ++ l' /\ zlen l' = k - a /\ forall i, a <= i < k -> rd l' (i - a) = f i)
    (fun i l => do v <- f i; Some (l ++ [v])) a b l0 Hab) as (l & E & l' & -> & L & K).
  - exists []. rewrite app_nil_r. spl; [reflexivity|unfold zlen; cbn [length]; lia|intros; lia].
  - intros i l Hi (l' & -> & L & K). destruct (H i Hi) as (v & Ev). rewrite Ev. cbn [bind]. eexists. split; [reflexivity|].
    exists (l' ++ [v]). spl.
    + rewrite app_assoc. reflexivity.
    + rewrite zlen_snoc. lia.
    + intros j Hj. rewrite rd_snoc. destruct (j - a =? zlen l') eqn:E.
      * replace j with i by lia. symmetry. exact Ev.
      * apply K. lia.
  - exists l'. auto.
Qed.

Lemma for_ok {S} (P : S -> Prop) (f : Z -> S -> option S) a b s : a <= b -> P s ->
  (forall i s, a <= i < b -> P s -> exists s', f i s = Some s' /\ P s') -> exists s', for_ a b f s = Some s' /\ P s'.
Proof. intros H H0 H1. apply (for_inv (fun _ => P) f a b s H H0). exact H1. Qed.

(** Same loop with functions that agree where an invariant holds. *)
Lemma for_ext {S} (f g : Z -> S -> option S) a b s : (forall i t, a <= i < b -> f i t = g i t) -> for_ a b f s = for_ a b g s.
Proof.
  intros H. unfold for_. remember (Z.to_nat (b - a)) as n eqn:E. revert a s H E. induction n as [|n IH]; intros a s H E; [reflexivity|].
  cbn [loop]. rewrite (H a s) by lia. destruct (g a s) as [t|]; [|reflexivity]. cbn [bind]. apply IH; [intros; apply H; lia|lia].
Qed.

(** The tables. *)
Definition mat_check (n m : Z) (t : list (list Z)) : bool := (zlen t =? n) && forallb (fun r => zlen r =? m) t.
Lemma mat_rd n m t i j : mat_check n m t = true -> 0 <= i < n -> 0 <= j < m -> exists r v, rd t i = Some r /\ rd r j = Some v.
Proof.
  intros H Hi Hj. apply andb_prop in H as [H1 H2]. rewrite forallb_forall in H2. destruct (rd_ok t i ltac:(lia)) as (r & Er).
  specialize (H2 r (rd_In _ _ _ Er)). destruct (rd_ok r j ltac:(lia)) as (v & Ev). eauto.
Qed.
Lemma mat_row n m t i : mat_check n m t = true -> 0 <= i < n -> exists r, rd t i = Some r /\ zlen r = m.
Proof.
  intros H Hi. apply andb_prop in H as [H1 H2]. rewrite forallb_forall in H2. destruct (rd_ok t i ltac:(lia)) as (r & Er).
  specialize (H2 r (rd_In _ _ _ Er)). exists r. split; [exact Er|lia].
Qed.
Lemma dct_mat : mat_check 16 16 dct16_m = true. Proof. vm_compute. reflexivity. Qed.
Lemma lfcb_mat : mat_check 32 8 sns_lfcb = true. Proof. vm_compute. reflexivity. Qed.
Lemma hfcb_mat : mat_check 32 8 sns_hfcb = true. Proof. vm_compute. reflexivity. Qed.
Lemma ge_len sr : 0 <= sr <= 6 -> zlen (ge_of sr) = 64.
Proof.
  intros H. assert (A : sr = 0 \/ sr = 1 \/ sr = 2 \/ sr = 3 \/ sr = 4 \/ sr = 5 \/ sr = 6) by lia.
  destruct A as [->|[->|[->|[->|[->|[->| ->]]]]]]; vm_compute; reflexivity.
Qed.
Lemma gains_ok shape : 0 <= shape < 4 -> exists g, rd sns_vq_gains shape = Some g /\ fst g = sns_ngains shape /\ zlen (snd g) = sns_ngains shape /\ 2 <= sns_ngains shape.
Proof.
  intros H. assert (A : shape = 0 \/ shape = 1 \/ shape = 2 \/ shape = 3) by lia.
  destruct A as [->|[->|[->| ->]]]; eexists; (split; [reflexivity|]); vm_compute; repeat split; discriminate.
Qed.

Section Sns.
Context {F : Type} (fl : fops F).

(** ** Transform *)
Lemma dct_row (x : list F) (m : Z -> Z -> option Z) i : zlen x = 16 -> (forall j, 0 <= j < 16 -> exists v, m i j = Some v) ->
  exists v, for_ 0 16 (fun j v => do xj <- rd x j; do m <- m i j; Some (f_add fl v (f_mul fl xj (f_dy fl m 28)))) (f_z fl 0) = Some v.
Proof.
  intros L H. destruct (for_ok (fun _ => True) (fun j v => do xj <- rd x j; do m <- m i j; Some (f_add fl v (f_mul fl xj (f_dy fl m 28)))) 0 16 (f_z fl 0)) as (v & E & _); try lia; auto.
  - intros j v Hj _. destruct (rd_ok x j ltac:(lia)) as (xj & Ex). destruct (H j Hj) as (c & Ec). rewrite Ex, Ec. cbn [bind]. eauto.
  - eauto.
Qed.

Lemma dct16_forward_ok x : zlen x = 16 -> exists y, dct16_forward fl x = Some y /\ zlen y = 16.
Proof.
  intros L. unfold dct16_forward.
  destruct (build_ok (fun i => for_ 0 16 (fun j v => do xj <- rd x j; do r <- rd dct16_m j; do m <- rd r i; Some (f_add fl v (f_mul fl xj (f_dy fl m 28)))) (f_z fl 0)) 0 16 [] ltac:(lia)) as (y & E & Ly & _).
  - intros i Hi. destruct (for_ok (fun _ => True) (fun j v => do xj <- rd x j; do r <- rd dct16_m j; do m <- rd r i; Some (f_add fl v (f_mul fl xj (f_dy fl m 28)))) 0 16 (f_z fl 0)) as (v & E & _); try lia; auto; [|eauto].
    intros j v Hj _. destruct (rd_ok x j ltac:(lia)) as (xj & Ex). destruct (mat_rd 16 16 dct16_m j i dct_mat Hj Hi) as (r & m & E1 & E2). rewrite Ex, E1. cbn [bind]. rewrite E2. cbn [bind]. eauto.
  - exists y. split; [exact E|lia].
Qed.

Lemma dct16_inverse_ok x : zlen x = 16 -> exists y, dct16_inverse fl x = Some y /\ zlen y = 16.
Proof.
  intros L. unfold dct16_inverse.
  destruct (build_ok (fun i => for_ 0 16 (fun j v => do xj <- rd x j; do r <- rd dct16_m i; do m <- rd r j; Some (f_add fl v (f_mul fl xj (f_dy fl m 28)))) (f_z fl 0)) 0 16 [] ltac:(lia)) as (y & E & Ly & _).
  - intros i Hi. destruct (for_ok (fun _ => True) (fun j v => do xj <- rd x j; do r <- rd dct16_m i; do m <- rd r j; Some (f_add fl v (f_mul fl xj (f_dy fl m 28)))) 0 16 (f_z fl 0)) as (v & E & _); try lia; auto; [|eauto].
    intros j v Hj _. destruct (rd_ok x j ltac:(lia)) as (xj & Ex). destruct (mat_rd 16 16 dct16_m i j dct_mat Hi Hj) as (r & m & E1 & E2). rewrite Ex, E1. cbn [bind]. rewrite E2. cbn [bind]. eauto.
  - exists y. split; [exact E|lia].
Qed.

(** ** Scale factors *)
Lemma pad_n4_eq nb : 20 <= nb <= 64 -> pad_n4 nb = if nb <? 32 then 32 - nb else 0.
Proof. intros H. unfold pad_n4. destruct (nb <? 32) eqn:E; [|reflexivity]. symmetry. apply (Z.mod_unique 32 nb 1); lia. Qed.
Lemma pad_n2_eq nb : 20 <= nb <= 64 -> pad_n2 nb = if nb <? 32 then 2 * nb - 32 else 64 - nb.
Proof. intros H. unfold pad_n2, MAX_BANDS. rewrite pad_n4_eq by exact H. destruct (nb <? 32); lia. Qed.

(** The band that is copied to band j of the 64. *)
Definition pad_src (nb j : Z) : Z :=
  let n4 := pad_n4 nb in
  let n2 := pad_n2 nb in
  if j <? 4 * n4 then j / 4 else if j <? 4 * n4 + 2 * n2 then j / 2 - n4 else j - 3 * n4 - n2.

Lemma pad_facts nb : 20 <= nb <= 64 -> 0 <= pad_n4 nb /\ 0 <= pad_n2 nb /\ pad_n4 nb + pad_n2 nb <= nb /\ 3 * pad_n4 nb + pad_n2 nb + nb = 64.
Proof. intros H. rewrite pad_n2_eq, pad_n4_eq by exact H. destruct (nb <? 32) eqn:E; lia. Qed.

Lemma pad_bands_ok junk nb (eb : list F) : 20 <= nb <= 64 -> zlen eb = nb ->
  exists e, pad_bands junk nb eb = Some e /\ zlen e = 64 /\ forall j, 0 <= j < 64 -> rd e j = rd eb (pad_src nb j).
Proof.
  intros H L. destruct (pad_facts nb H) as (P1 & P2 & P3 & P4). unfold pad_bands, pad_src. cbv zeta.
  generalize dependent (pad_n4 nb). intros n4. generalize dependent (pad_n2 nb). intros n2 P1 P2 P3 P4.
  destruct (for_inv (fun k e => zlen e = 64 /\ forall j, 0 <= j < 4 * k -> rd e j = rd eb (j / 4))
    (fun i e => do v <- rd eb i; do e <- wr e (4 * i + 3) v; do e <- wr e (4 * i + 2) v; do e <- wr e (4 * i + 1) v; wr e (4 * i) v)
    0 n4 (repeat junk 64) ltac:(lia)) as (e1 & E1 & L1 & H1).
  { split; [rewrite zlen_repeat; reflexivity|]. intros; lia. }
  { intros i e Hi (Le & He). destruct (rd_ok eb i ltac:(lia)) as (v & Ev). rewrite Ev. cbn [bind].
    rewrite wr_ok by lia. cbn [bind]. rewrite wr_ok by (rewrite !upd_len; lia). cbn [bind]. rewrite wr_ok by (rewrite !upd_len; lia). cbn [bind].
    rewrite wr_ok by (rewrite !upd_len; lia). eexists. split; [reflexivity|]. split; [rewrite !upd_len; exact Le|]. intros j Hj.
    rewrite !rd_upd by (rewrite ?upd_len; lia).
    destruct (4 * i =? j) eqn:A0; [replace (j / 4) with i by (Z.div_mod_to_equations; lia); auto|].
    destruct (4 * i + 1 =? j) eqn:A1; [replace (j / 4) with i by (Z.div_mod_to_equations; lia); auto|].
    destruct (4 * i + 2 =? j) eqn:A2; [replace (j / 4) with i by (Z.div_mod_to_equations; lia); auto|].
    destruct (4 * i + 3 =? j) eqn:A3; [replace (j / 4) with i by (Z.div_mod_to_equations; lia); auto|].
    apply He. lia. }
  rewrite E1. cbn [bind].
  destruct (for_inv (fun k e => zlen e = 64 /\ forall j, 0 <= j < 2 * (n4 + k) -> rd e j = rd eb (if j <? 4 * n4 then j / 4 else j / 2 - n4))
    (fun i e => do v <- rd eb i; do e <- wr e (2 * (n4 + i) + 1) v; wr e (2 * (n4 + i)) v) n4 (n4 + n2) e1 ltac:(lia)) as (e2 & E2 & L2 & H2).
  { split; [exact L1|]. intros j Hj. destruct (j <? 4 * n4) eqn:A; [|lia]. apply H1. lia. }
  { intros i e Hi (Le & He). destruct (rd_ok eb i ltac:(lia)) as (v & Ev). rewrite Ev. cbn [bind].
    rewrite wr_ok by lia. cbn [bind]. rewrite wr_ok by (rewrite !upd_len; lia). eexists. split; [reflexivity|]. split; [rewrite !upd_len; exact Le|]. intros j Hj.
    rewrite !rd_upd by (rewrite ?upd_len; lia).
    destruct (2 * (n4 + i) =? j) eqn:A0.
    { destruct (j <? 4 * n4) eqn:B; [lia|]. replace (j / 2 - n4) with i by (Z.div_mod_to_equations; lia). auto. }
    destruct (2 * (n4 + i) + 1 =? j) eqn:A1.
    { destruct (j <? 4 * n4) eqn:B; [lia|]. replace (j / 2 - n4) with i by (Z.div_mod_to_equations; lia). auto. }
    apply He. lia. }
  rewrite E2. cbn [bind].
  destruct (for_inv (fun k e => zlen e = 64 /\ forall j, 0 <= j < 4 * n4 + 2 * n2 + k -> rd e j = rd eb (if j <? 4 * n4 then j / 4 else if j <? 4 * n4 + 2 * n2 then j / 2 - n4 else j - 3 * n4 - n2))
    (fun i e => do v <- rd eb (n4 + n2 + i); wr e (4 * n4 + 2 * n2 + i) v) 0 (nb - n4 - n2) e2 ltac:(lia)) as (e3 & E3 & L3 & H3).
  { split; [exact L2|]. intros j Hj. rewrite H2 by lia. destruct (j <? 4 * n4) eqn:A; [reflexivity|]. destruct (j <? 4 * n4 + 2 * n2) eqn:B; [reflexivity|lia]. }
  { intros i e Hi (Le & He). destruct (rd_ok eb (n4 + n2 + i) ltac:(lia)) as (v & Ev). rewrite Ev. cbn [bind].
    rewrite wr_ok by lia. eexists. split; [reflexivity|]. split; [rewrite !upd_len; exact Le|]. intros j Hj. rewrite !rd_upd by lia.
    destruct (4 * n4 + 2 * n2 + i =? j) eqn:A0; [|apply He; lia].
    destruct (j <? 4 * n4) eqn:B; [lia|]. destruct (j <? 4 * n4 + 2 * n2) eqn:C; [lia|]. replace (j - 3 * n4 - n2) with (n4 + n2 + i) by lia. auto. }
  exists e3. split; [exact E3|]. split; [exact L3|]. intros j Hj. apply H3. lia.
Qed.

Lemma pad_bands_junk junk junk' nb (eb : list F) : 20 <= nb <= 64 -> zlen eb = nb -> pad_bands junk nb eb = pad_bands junk' nb eb.
Proof.
  intros H L. destruct (pad_bands_ok junk nb eb H L) as (e & E & Le & He). destruct (pad_bands_ok junk' nb eb H L) as (e' & E' & Le' & He').
  rewrite E, E'. f_equal. apply rd_ext; [lia|]. intros i Hi. rewrite He, He' by lia. reflexivity.
Qed.

Lemma smooth_step_ok ge i a b (e : list F) sum : zlen ge = 64 -> zlen e = 64 -> 0 <= i < 63 ->
  exists c e' s', smooth_step fl ge i a b e sum = Some (c, e', s') /\ zlen e' = 64.
Proof.
  intros Lg Le Hi. unfold smooth_step. destruct (rd_ok e (i + 1) ltac:(lia)) as (c & Ec). destruct (rd_ok ge i ltac:(lia)) as (g & Eg).
  rewrite Ec, Eg. cbn [bind]. cbv zeta. rewrite wr_ok by lia. cbn [bind]. do 3 eexists. split; [reflexivity|]. rewrite upd_len. exact Le.
Qed.

Lemma smooth_log_ok sr (e : list F) : 0 <= sr <= 6 -> zlen e = 64 -> exists e', smooth_log fl sr e = Some e' /\ zlen e' = 64.
Proof.
  intros Hs Le. pose proof (ge_len sr Hs) as Lg. unfold smooth_log. cbv zeta. generalize dependent (ge_of sr). intros ge Lg.
  destruct (rd_ok e 0 ltac:(lia)) as (e0 & E0). rewrite E0. cbn [bind].
  destruct (for_ok (fun '(_, _, e, _) => zlen e = 64) (fun t '(e0, e1, e, sum) =>
    do r <- smooth_step fl ge (3 * t) e0 e1 e sum; let '(e2, e, sum) := r in
    do r <- smooth_step fl ge (3 * t + 1) e1 e2 e sum; let '(e0, e, sum) := r in
    do r <- smooth_step fl ge (3 * t + 2) e2 e0 e sum; let '(e1, e, sum) := r in
    Some (e0, e1, e, sum)) 0 21 (e0, e0, e, f_z fl 0)) as ((((a & b) & e1) & s) & E1 & L1); try lia; auto.
  { intros t (((a & b) & e1) & s) Ht L1. destruct (smooth_step_ok ge (3 * t) a b e1 s Lg L1 ltac:(lia)) as (c & e2 & s2 & E2 & L2). rewrite E2. cbn [bind].
    destruct (smooth_step_ok ge (3 * t + 1) b c e2 s2 Lg L2 ltac:(lia)) as (d & e3 & s3 & E3 & L3). rewrite E3. cbn [bind].
    destruct (smooth_step_ok ge (3 * t + 2) c d e3 s3 Lg L3 ltac:(lia)) as (f & e4 & s4 & E4 & L4). rewrite E4. cbn [bind]. eexists. split; [reflexivity|]. exact L4. }
  rewrite E1. cbn [bind]. destruct (rd_ok ge 63 ltac:(lia)) as (g & Eg). rewrite Eg. cbn [bind]. rewrite wr_ok by lia. cbn [bind].
  apply for_ok; [lia|rewrite upd_len; exact L1|]. intros i e2 Hi L2. destruct (rd_ok e2 i ltac:(lia)) as (v & Ev). rewrite Ev. cbn [bind].
  rewrite wr_ok by lia. eexists. split; [reflexivity|]. rewrite upd_len. exact L2.
Qed.

Lemma group6_ok (e : list F) a b c d f g : (forall i, In i [a; b; c; d; f; g] -> 0 <= i < zlen e) -> exists v, group6 fl e a b c d f g = Some v.
Proof.
  intros H. unfold group6. destruct (rd_ok e a) as (? & ->); [apply H; cbn; auto 8|]. destruct (rd_ok e b) as (? & ->); [apply H; cbn; auto 8|].
  destruct (rd_ok e c) as (? & ->); [apply H; cbn; auto 8|]. destruct (rd_ok e d) as (? & ->); [apply H; cbn; auto 8|].
  destruct (rd_ok e f) as (? & ->); [apply H; cbn; auto 8|]. destruct (rd_ok e g) as (? & ->); [apply H; cbn; auto 8|]. cbn [bind]. eauto.
Qed.

Lemma group_bands_ok (e : list F) : zlen e = 64 -> exists scf s, group_bands fl e = Some (scf, s) /\ zlen scf = 16.
Proof.
  intros L. unfold group_bands. destruct (group6_ok e 0 4 0 3 1 2) as (v & Ev); [intros i; cbn [In]; lia|]. rewrite Ev. cbn [bind].
  destruct (for_inv (fun k '(scf, _) => zlen scf = k) (fun i '(scf, sum) =>
    do v <- group6 fl e (4 * i - 1) (4 * i + 4) (4 * i) (4 * i + 3) (4 * i + 1) (4 * i + 2); Some (scf ++ [v], f_add fl sum v)) 1 15 ([v], v) ltac:(lia)) as ((scf & s) & E & Ls).
  - reflexivity.
  - intros i (scf & s) Hi Ls. destruct (group6_ok e (4 * i - 1) (4 * i + 4) (4 * i) (4 * i + 3) (4 * i + 1) (4 * i + 2)) as (w & Ew); [intros j; cbn [In]; lia|].
    rewrite Ew. cbn [bind]. eexists. split; [reflexivity|]. cbv beta iota. rewrite zlen_snoc. lia.
  - rewrite E. cbn [bind]. destruct (group6_ok e 59 63 60 63 61 62) as (w & Ew); [intros i; cbn [In]; lia|]. rewrite Ew. cbn [bind].
    do 2 eexists. split; [reflexivity|]. rewrite zlen_snoc. lia.
Qed.

Lemma center_ok k (scf : list F) s : zlen scf = 16 -> exists l, center fl k scf s = Some l /\ zlen l = 16.
Proof.
  intros L. unfold center. apply for_ok; [lia|exact L|]. intros i l Hi Ll. destruct (rd_ok l i ltac:(lia)) as (v & Ev). rewrite Ev. cbn [bind].
  rewrite wr_ok by lia. eexists. split; [reflexivity|]. rewrite upd_len. exact Ll.
Qed.

Lemma attack_ok dt (scf : list F) : zlen scf = 16 -> exists l, attack fl dt scf = Some l /\ zlen l = 16.
Proof.
  intros L. unfold attack. destruct (rd_ok scf 0 ltac:(lia)) as (s1 & ->). destruct (rd_ok scf 1 ltac:(lia)) as (s2 & ->).
  destruct (rd_ok scf 2 ltac:(lia)) as (s3 & ->). destruct (rd_ok scf 3 ltac:(lia)) as (s4 & ->). cbn [bind]. cbv zeta.
  rewrite wr_ok by lia. cbn [bind]. rewrite wr_ok by (rewrite upd_len; lia). cbn [bind].
  match goal with |- context [for_ 2 14 ?g ?st] => destruct (for_ok (fun s : list F * (F * F * F * F) * F * F => zlen (fst (fst (fst s))) = 16) g 2 14 st) as ((((l & q) & sn) & sum) & E & Ll) end; try lia.
  - cbn [fst]. rewrite !upd_len. exact L.
  - intros i (((l & (((q1 & q2) & q3) & q4)) & sn) & sum) Hi Ll. cbn [fst] in Ll. destruct (rd_ok l (i + 2) ltac:(lia)) as (v & ->). cbn [bind].
    rewrite wr_ok by lia. cbn [bind]. eexists. split; [reflexivity|]. cbn [fst]. rewrite upd_len. exact Ll.
  - rewrite E. cbn [bind]. destruct q as (((q1 & q2) & q3) & q4). cbn [fst] in Ll. rewrite wr_ok by lia. cbn [bind].
    rewrite wr_ok by (rewrite upd_len; lia). cbn [bind]. apply center_ok. rewrite !upd_len. exact Ll.
Qed.

Lemma compute_ok junk dt sr nbytes eb att : tns_cfg dt sr -> zlen eb = num_bands dt sr ->
  exists scf, compute_scale_factors fl junk dt sr nbytes eb att = Some scf /\ zlen scf = 16.
Proof.
  intros C L. destruct (lim_ok dt sr C) as (Hn & _). unfold compute_scale_factors. unfold MAX_BANDS in Hn.
  destruct (pad_bands_ok junk (num_bands dt sr) eb Hn L) as (e & -> & Le & _). cbn [bind].
  destruct (smooth_log_ok sr e) as (e2 & -> & L2); [unfold tns_cfg in C; lia|exact Le|]. cbn [bind].
  destruct (group_bands_ok e2 L2) as (scf & s & -> & Ls). cbn [bind fst snd].
  destruct (center_ok (scale_cf fl dt sr nbytes) scf s Ls) as (l & -> & Ll). cbn [bind]. destruct att; [|eauto]. apply attack_ok. exact Ll.
Qed.

Lemma compute_junk junk junk' dt sr nbytes eb att : tns_cfg dt sr -> zlen eb = num_bands dt sr ->
  compute_scale_factors fl junk dt sr nbytes eb att = compute_scale_factors fl junk' dt sr nbytes eb att.
Proof.
  intros C L. destruct (lim_ok dt sr C) as (Hn & _). unfold compute_scale_factors. rewrite (pad_bands_junk junk junk') by assumption. reflexivity.
Qed.

(** ** Codebooks *)
Lemma cb_dist_ok (scf : list F) cb o : zlen cb = 8 -> 0 <= o -> o + 8 <= zlen scf -> exists d, cb_dist fl scf cb o = Some d.
Proof.
  intros Lc Ho Ls. unfold cb_dist. destruct (for_ok (fun _ : F => True) (fun i d => do s <- rd scf (o + i); do c <- rd cb i; Some (f_add fl d (f_mul fl (f_sub fl s (f_dy fl c 32)) (f_sub fl s (f_dy fl c 32))))) 0 8 (f_z fl 0)) as (d & E & _); try lia; auto; [|eauto].
  intros i d Hi _. destruct (rd_ok scf (o + i) ltac:(lia)) as (s & ->). destruct (rd_ok cb i ltac:(lia)) as (c & ->). cbn [bind]. eauto.
Qed.

Lemma resolve_ok cbs (scf : list F) o : mat_check 32 8 cbs = true -> 0 <= o -> o + 8 <= zlen scf ->
  exists i, resolve_cb fl cbs scf o = Some i /\ 0 <= i < 32.
Proof.
  intros M Ho Ls. unfold resolve_cb.
  destruct (for_ok (fun s : Z * F => 0 <= fst s < 32) (fun icb '(idx, dmax) => do cb <- rd cbs icb; do d <- cb_dist fl scf cb o;
    Some (if (icb =? 0) || f_lt fl d dmax then (icb, d) else (idx, dmax))) 0 32 (0, f_z fl 0)) as (s & -> & H); try lia.
  - cbn [fst]. lia.
  - intros i (idx & dm) Hi H. destruct (mat_row 32 8 cbs i M Hi) as (cb & -> & Lc). cbn [bind]. destruct (cb_dist_ok scf cb o Lc Ho Ls) as (d & ->). cbn [bind].
    eexists. split; [reflexivity|]. destruct ((i =? 0) || f_lt fl d dm); cbn [fst] in *; lia.
  - cbn [bind]. eauto.
Qed.

(** ** Pulses *)
Lemma normalize_ok c : zlen c = 16 -> exists cn, normalize fl c = Some cn /\ zlen cn = 16.
Proof.
  intros L. unfold normalize. destruct (for_ok (fun _ : Z => True) (fun i s => do v <- rd c i; Some (s + v * v)) 0 16 0) as (s & -> & _); try lia; auto.
  - intros i s Hi _. destruct (rd_ok c i ltac:(lia)) as (v & ->). cbn [bind]. eauto.
  - cbn [bind]. cbv zeta. destruct (build_ok (fun i => do v <- rd c i; Some (f_mul fl (f_z fl v) (f_div fl (f_z fl 1) (f_sqrt fl (f_z fl s))))) 0 16 [] ltac:(lia)) as (l & E & Ll & _).
    + intros i Hi. destruct (rd_ok c i ltac:(lia)) as (v & ->). cbn [bind]. eauto.
    + exists l. split; [|lia]. cbn [app] in E. rewrite <- E. apply for_ext. intros i t Hi. destruct (rd c i); reflexivity.
Qed.

Lemma best_pulse_ok (x : list F) y o n corr energy : 0 <= o -> 1 <= n -> o + n <= zlen x -> o + n <= zlen y ->
  exists k, best_pulse fl x y o n corr energy = Some k /\ 0 <= k < n.
Proof.
  intros Ho Hn Lx Ly. unfold best_pulse. destruct (rd_ok x o ltac:(lia)) as (x0 & ->). destruct (rd_ok y o ltac:(lia)) as (y0 & ->). cbn [bind].
  match goal with |- context [for_ 1 n ?g ?st] => destruct (for_ok (fun s : F * F * Z => 0 <= snd s < n) g 1 n st) as (s & -> & H) end; try lia.
  - cbn [snd]. lia.
  - intros i ((bc & be) & nb) Hi H. destruct (rd_ok x (o + i) ltac:(lia)) as (xi & ->). destruct (rd_ok y (o + i) ltac:(lia)) as (yi & ->). cbn [bind]. cbv zeta.
    eexists. split; [reflexivity|]. match goal with |- context [if ?c then _ else _] => destruct c end; cbn [snd] in *; lia.
  - cbn [bind]. eauto.
Qed.

Definition zsum (l : list Z) : Z := fold_right Z.add 0 l.
Definition nonneg (l : list Z) : Prop := Forall (fun v => 0 <= v) l.

Lemma zsum_app l l' : zsum (l ++ l') = zsum l + zsum l'.
Proof. induction l as [|v l IH]; cbn [app zsum fold_right]; [reflexivity|]. fold (zsum (l ++ l')) (zsum l). lia. Qed.

Lemma zsum_nonneg l : nonneg l -> 0 <= zsum l.
Proof. induction 1; cbn [zsum fold_right]; [lia|]. fold (zsum l). lia. Qed.

(** Indexes are natural here. *)
Lemma upd_split {A} (l : list A) i v w : rd l i = Some v -> exists a b, l = a ++ v :: b /\ zlen a = i /\ upd l i w = a ++ w :: b.
Proof.
  unfold rd. destruct (i <? 0) eqn:E; [discriminate|]. intros H. apply nth_error_split in H as (a & b & -> & La). exists a, b. spl; try reflexivity.
  - unfold zlen. lia.
  - unfold upd. rewrite E. rewrite <- La. clear. induction a as [|u a IH]; [reflexivity|]. cbn [app length upd_nat]. rewrite IH. reflexivity.
Qed.

(** One more pulse at index i. *)
Lemma pulse_sums y i v n : rd y i = Some v ->
  zsum (firstn n (upd y i (v + 1))) = zsum (firstn n y) + (if i <? Z.of_nat n then 1 else 0) /\
  zsum (skipn n (upd y i (v + 1))) = zsum (skipn n y) + (if i <? Z.of_nat n then 0 else 1).
Proof.
  intros E. destruct (upd_split y i v (v + 1) E) as (a & b & -> & La & ->). unfold zlen in La.
  rewrite !firstn_app, !skipn_app, !zsum_app. destruct (i <? Z.of_nat n) eqn:C.
  - replace (n - length a)%nat with (S (n - length a - 1)) by lia. cbn [firstn skipn zsum fold_right].
    fold (zsum (firstn (n - length a - 1) b)). lia.
  - replace (n - length a)%nat with O by lia. cbn [firstn skipn zsum fold_right]. fold (zsum b). lia.
Qed.

Lemma nonneg_upd y i v : nonneg y -> rd y i = Some v -> nonneg (upd y i (v + 1)).
Proof.
  intros H E. pose proof (proj1 (Forall_forall _ _) H v (rd_In _ _ _ E)) as Hv. cbv beta in Hv.
  destruct (upd_split y i v (v + 1) E) as (a & b & -> & La & ->). unfold nonneg in *. apply Forall_app in H as [H1 H2]. apply Forall_app. split; [exact H1|].
  inversion H2; subst. constructor; [lia|assumption].
Qed.

(** The pulses of an interval that is before or after index 10. *)
Lemma add_pulse_ok (x : list F) o n start end_ y corr energy m : 0 <= o -> 1 <= n -> o + n <= zlen x -> o + n <= zlen y -> start <= end_ -> nonneg y ->
  exists y' corr' energy', add_pulse fl x o n start end_ (y, corr, energy) = Some (y', corr', energy') /\ zlen y' = zlen y /\ nonneg y' /\
    zsum (firstn m y') + zsum (skipn m y') = zsum (firstn m y) + zsum (skipn m y) + (end_ - start) /\
    (o + n <= Z.of_nat m -> zsum (skipn m y') = zsum (skipn m y)) /\
    (Z.of_nat m <= o -> zsum (firstn m y') = zsum (firstn m y)).
Proof.
  intros Ho Hn Lx Ly Hs Hy. unfold add_pulse.
  match goal with |- context [for_ start end_ ?g ?st] => destruct (for_inv (fun k (s : list Z * F * F) => let y' := fst (fst s) in zlen y' = zlen y /\ nonneg y' /\
    zsum (firstn m y') + zsum (skipn m y') = zsum (firstn m y) + zsum (skipn m y) + (k - start) /\
    (o + n <= Z.of_nat m -> zsum (skipn m y') = zsum (skipn m y)) /\ (Z.of_nat m <= o -> zsum (firstn m y') = zsum (firstn m y))) g start end_ st Hs) as (((y' & c') & e') & E & H) end.
  - cbn [fst]. spl; auto. lia.
  - intros k ((y' & c') & e') Hk (L1 & N1 & S1 & S2 & S3). cbn [fst] in *. destruct (best_pulse_ok x y' o n c' e' Ho Hn Lx ltac:(lia)) as (nb & -> & Hb). cbn [bind].
    destruct (rd_ok x (o + nb) ltac:(lia)) as (xb & ->). destruct (rd_ok y' (o + nb) ltac:(lia)) as (yb & Eb). rewrite Eb. cbn [bind]. rewrite wr_ok by lia. cbn [bind].
    eexists. split; [reflexivity|]. cbn [fst]. destruct (pulse_sums y' (o + nb) yb m Eb) as (P1 & P2).
    split; [rewrite upd_len; exact L1|]. split; [apply nonneg_upd; assumption|]. rewrite P1, P2. destruct (o + nb <? Z.of_nat m) eqn:C; spl; lia.
  - exists y', c', e'. split; [exact E|]. exact H.
Qed.

(** The projection: 16 numbers of pulses that are not negative, at most 6 in all. *)
Definition floors_ok (xm : list F) (s : F) : Prop :=
  exists ks, zlen ks = 16 /\ nonneg ks /\ zsum ks <= 6 /\
    forall i v, 0 <= i < 16 -> rd xm i = Some v -> f_floor fl (f_mul fl v (f_div fl (f_z fl 5) (f_max fl s (f_dy fl 8507059 126)))) = rd ks i.

Lemma firstn_snoc {A} (l : list A) i v : rd l i = Some v -> firstn (Z.to_nat (i + 1)) l = firstn (Z.to_nat i) l ++ [v].
Proof.
  intros E. pose proof (rd_range _ _ _ E). destruct (upd_split l i v v E) as (a & b & -> & La & _). unfold zlen in *.
  rewrite !firstn_app. replace (Z.to_nat (i + 1) - length a)%nat with 1%nat by lia. replace (Z.to_nat i - length a)%nat with O by lia.
  cbn [firstn]. rewrite app_nil_r. rewrite !firstn_all2 by lia. reflexivity.
Qed.

Lemma project_ok (xm : list F) s : zlen xm = 16 -> floors_ok xm s ->
  exists c corr energy, project fl xm s = Some (c, zsum c, corr, energy) /\ zlen c = 16 /\ nonneg c /\ zsum c <= 6.
Proof.
  intros L (ks & Lk & Nk & Sk & Hk). unfold project. cbv zeta.
  match goal with |- context [for_ 0 16 ?g ?st] => destruct (for_inv (fun k (t : list Z * Z * F * F) => let '(c, np, _, _) := t in c = firstn (Z.to_nat k) ks /\ np = zsum c) g 0 16 st ltac:(lia)) as ((((c & np) & corr) & en) & E & Ec & En) end.
  - split; reflexivity.
  - intros i (((c & np) & corr) & en) Hi (-> & ->). destruct (rd_ok xm i ltac:(lia)) as (v & Ev). rewrite Ev. cbn [bind]. rewrite (Hk i v Hi Ev).
    destruct (rd_ok ks i ltac:(lia)) as (k & Ek). rewrite Ek. cbn [bind]. eexists. split; [reflexivity|]. cbv beta iota. rewrite (firstn_snoc ks i k Ek). split; [reflexivity|].
    rewrite zsum_app. cbn [zsum fold_right]. lia.
  - rewrite E. exists c, corr, en. subst np. split; [reflexivity|]. rewrite Ec. rewrite firstn_all2 by (unfold zlen in Lk; lia). auto.
Qed.

Lemma zsum_split n l : zsum (firstn n l) + zsum (skipn n l) = zsum l.
Proof. rewrite <- zsum_app, firstn_skipn. reflexivity. Qed.

Lemma nonneg_sub n l : nonneg l -> nonneg (firstn n l) /\ nonneg (skipn n l).
Proof. intros H. rewrite <- (firstn_skipn n l) in H. apply Forall_app in H. exact H. Qed.

Lemma skipn_rd_zero (l : list Z) n : zlen l = 16 -> Z.of_nat n <= 16 -> (forall i, Z.of_nat n <= i < 16 -> rd l i = Some 0) -> zsum (skipn n l) = 0 /\ Forall (fun v => v = 0) (skipn n l).
Proof.
  intros L Hn H. assert (A : Forall (fun v => v = 0) (skipn n l)).
  { apply Forall_forall. intros v Hv. apply In_nth_error in Hv as (k & Hk).
    assert (B : nth_error l (n + k) = Some v).
    { rewrite <- Hk. clear. revert n. induction l as [|u l IH]; intros [|n]; try reflexivity; [destruct k; reflexivity|]. cbn [plus skipn nth_error]. apply IH. }
    assert (C : (n + k < length l)%nat) by (apply nth_error_Some; congruence). unfold zlen in L.
    specialize (H (Z.of_nat (n + k)) ltac:(lia)). unfold rd in H. destruct (Z.of_nat (n + k) <? 0) eqn:E; [lia|]. rewrite Nat2Z.id in H. congruence. }
  split; [|exact A]. clear - A. induction A; cbn [zsum fold_right]; [reflexivity|]. fold (zsum l0). lia.
Qed.

Lemma nth_error_firstn_lt {A} (l : list A) : forall n k, (k < n)%nat -> nth_error (firstn n l) k = nth_error l k.
Proof. induction l as [|v l IH]; intros [|n] [|k] H; try reflexivity; try lia. cbn [firstn nth_error]. apply IH. lia. Qed.

Lemma remove_high_ok (xm : list F) c2 corr energy : zlen xm = 16 -> zlen c2 = 16 -> nonneg c2 -> zsum c2 = 8 ->
  exists c corr' energy', remove_high fl xm c2 corr energy = Some (c, zsum (firstn 10 c), corr', energy') /\ zlen c = 16 /\ nonneg c /\
    firstn 10 c = firstn 10 c2 /\ zsum (skipn 10 c) = 0.
Proof.
  intros Lx Lc Nc Sc. unfold remove_high.
  match goal with |- context [for_ 10 16 ?g ?st] => destruct (for_inv (fun k (t : list Z * Z * F * F) => let '(c, np, _, _) := t in zlen c = 16 /\
     (forall i, 0 <= i < 10 -> rd c i = rd c2 i) /\ (forall i, 10 <= i < k -> rd c i = Some 0) /\ np = 8 - zsum (firstn (Z.to_nat (k - 10)) (skipn 10 c2))) g 10 16 st ltac:(lia)) as ((((c & np) & corr') & en) & E & H1 & H2 & H3 & H4) end.
  - spl; auto; try (intros; lia). 
  - intros i (((c & np) & corr') & en) Hi (L & H2 & H3 & H4). destruct (rd_ok c2 i ltac:(lia)) as (k & Ek). destruct (rd_ok xm i ltac:(lia)) as (v & Ev).
    rewrite Ek, Ev. cbn [bind]. rewrite wr_ok by lia. cbn [bind]. eexists. split; [reflexivity|]. cbv beta iota. spl.
    + rewrite upd_len. exact L.
    + intros j Hj. rewrite rd_upd by lia. destruct (i =? j) eqn:A; [lia|]. apply H2. exact Hj.
    + intros j Hj. rewrite rd_upd by lia. destruct (i =? j) eqn:A; [reflexivity|]. apply H3. lia.
    + assert (Es : rd (skipn 10 c2) (i - 10) = Some k).
      { rewrite <- Ek. unfold rd. destruct (i - 10 <? 0) eqn:A, (i <? 0) eqn:B; try lia. replace (Z.to_nat i) with (10 + Z.to_nat (i - 10))%nat by lia.
        unfold zlen in Lc. generalize (Z.to_nat (i - 10)). clear. do 10 (destruct c2 as [|? c2]; [intros []; reflexivity|]). intros n. reflexivity. }
      replace (i + 1 - 10) with (i - 10 + 1) by lia. rewrite (firstn_snoc _ _ _ Es), zsum_app. cbn [zsum fold_right]. rewrite H4. lia.
  - rewrite E. assert (F1 : firstn 10 c = firstn 10 c2).
    { apply rd_ext.
      - unfold zlen in *. rewrite !firstn_length. lia.
      - intros i Hi. assert (Hi' : 0 <= i < 10) by (unfold zlen in Hi; rewrite firstn_length in Hi; lia). specialize (H2 i Hi').
        unfold rd in *. destruct (i <? 0) eqn:A; [reflexivity|]. rewrite !nth_error_firstn_lt by lia. exact H2. }
    destruct (skipn_rd_zero c 10 H1 ltac:(lia) H3) as (S0 & Z0).
    exists c, corr', en. assert (Enp : np = zsum (firstn 10 c)).
    { rewrite H4, F1. rewrite firstn_all2 by (rewrite skipn_length; unfold zlen in Lc; lia). pose proof (zsum_split 10 c2). lia. }
    subst np. rewrite Enp. spl; auto. rewrite <- (firstn_skipn 10 c). apply Forall_app. split.
    + rewrite F1. apply nonneg_sub. exact Nc.
    + eapply Forall_impl; [|exact Z0]. intros v Hv; rewrite Hv; lia.
Qed.

Lemma pulses_zsum l : nonneg l -> pulses l = zsum l.
Proof. induction 1; cbn [pulses zsum fold_right]; [reflexivity|]. fold (pulses l) (zsum l). lia. Qed.

(** The four configurations. *)
Lemma configurations_ok (xm : list F) s : zlen xm = 16 -> floors_ok xm s ->
  exists c0 c1 c2 c3, configurations fl xm s = Some [c0; c1; c2; c3] /\
    config_ok 0 c0 /\ config_ok 1 c1 /\ config_ok 2 c2 /\ config_ok 3 c3.
Proof.
  intros L H. unfold configurations. destruct (project_ok xm s L H) as (c & corr & en & E & Lc & Nc & Sc). rewrite E. cbn [bind].
  pose proof (zsum_nonneg c Nc) as Pc. pose proof (zsum_split 10 c) as Qc.
  destruct (add_pulse_ok xm 0 16 (zsum c) 6 c corr en 10 ltac:(lia) ltac:(lia) ltac:(lia) ltac:(lia) ltac:(lia) Nc) as (c3 & corr3 & en3 & E3 & L3 & N3 & S3 & _ & _).
  rewrite E3. cbn [bind]. rewrite !zsum_split in S3.
  destruct (add_pulse_ok xm 0 16 6 8 c3 corr3 en3 10 ltac:(lia) ltac:(lia) ltac:(lia) ltac:(lia) ltac:(lia) N3) as (c2 & corr2 & en2 & E2 & L2 & N2 & S2 & _ & _).
  rewrite E2. cbn [bind]. rewrite !zsum_split in S2.
  destruct (remove_high_ok xm c2 corr2 en2 L ltac:(lia) N2 ltac:(lia)) as (d & corrd & en_d & Ed & Ld & Nd & Fd & Sd). rewrite Ed. cbn [bind].
  assert (Hd : zsum (firstn 10 d) <= 8).
  { rewrite Fd. pose proof (zsum_nonneg _ (proj2 (nonneg_sub 10 c2 N2))). pose proof (zsum_split 10 c2). lia. }
  destruct (add_pulse_ok xm 0 10 (zsum (firstn 10 d)) 10 d corrd en_d 10 ltac:(lia) ltac:(lia) ltac:(lia) ltac:(lia) ltac:(lia) Nd) as (c1 & corr1 & en1 & E1 & L1 & N1 & S1 & T1 & _).
  rewrite E1. cbn [bind]. specialize (T1 ltac:(lia)).
  destruct (add_pulse_ok xm 10 6 0 1 c1 corr1 en1 10 ltac:(lia) ltac:(lia) ltac:(lia) ltac:(lia) ltac:(lia) N1) as (c0 & corr0 & en0 & E0 & L0 & N0 & S0 & _ & T0).
  rewrite E0. cbn [bind]. specialize (T0 ltac:(lia)). exists c0, c1, c2, c3. split; [reflexivity|].
  unfold config_ok. cbn [Z.eqb Pos.eqb].
  destruct (nonneg_sub 10 c0 N0) as (A0 & B0). destruct (nonneg_sub 10 c1 N1) as (A1 & B1). rewrite !pulses_zsum by assumption.
  unfold zlen in *. spl; lia.
Qed.

Lemma pulses_abs l l' : Forall2 (fun a b => Z.abs a = Z.abs b) l l' -> forall n, pulses (firstn n l) = pulses (firstn n l') /\ pulses (skipn n l) = pulses (skipn n l') /\ pulses l = pulses l'.
Proof.
  induction 1 as [|a b l l' H H2 IH]; intros n; [destruct n; auto|].
  assert (P : pulses l = pulses l') by (apply (IH 0%nat)).
  destruct n as [|n].
  - cbn [firstn skipn pulses fold_right]. fold (pulses l) (pulses l'). rewrite P, H. auto.
  - destruct (IH n) as (I1 & I2 & I3). cbn [firstn skipn pulses fold_right]. fold (pulses l) (pulses l') (pulses (firstn n l)) (pulses (firstn n l')) (pulses (skipn n l)) (pulses (skipn n l')). rewrite H, I1, I2, I3. auto.
Qed.

Lemma F2_rd {A} (R : A -> A -> Prop) (l l' : list A) : zlen l = zlen l' -> (forall i a b, 0 <= i < zlen l -> rd l i = Some a -> rd l' i = Some b -> R a b) -> Forall2 R l l'.
Proof.
  revert l'. induction l as [|a l IH]; intros [|b l'] L H; try (unfold zlen in L; cbn [length] in L; lia); constructor.
  - apply (H 0); try reflexivity. unfold zlen. cbn [length]. lia.
  - apply IH; [unfold zlen in *; cbn [length] in *; lia|]. intros i u v Hi Hu Hv. apply (H (i + 1)).
    + unfold zlen in *. cbn [length]. lia.
    + unfold rd in *. destruct (i <? 0) eqn:A1, (i + 1 <? 0) eqn:A2; try lia. replace (Z.to_nat (i + 1)) with (S (Z.to_nat i)) by lia. exact Hu.
    + unfold rd in *. destruct (i <? 0) eqn:A1, (i + 1 <? 0) eqn:A2; try lia. replace (Z.to_nat (i + 1)) with (S (Z.to_nat i)) by lia. exact Hv.
Qed.

Lemma signs_ok (x : list F) c : zlen x = 16 -> zlen c = 16 ->
  exists c', signs fl x c = Some c' /\ zlen c' = 16 /\ Forall2 (fun a b => Z.abs a = Z.abs b) c c'.
Proof.
  intros Lx Lc. unfold signs.
  match goal with |- context [for_ 0 16 ?g ?st] => destruct (for_inv (fun k c' => zlen c' = 16 /\ (forall i, k <= i < 16 -> rd c' i = rd c i) /\
    forall i a b, 0 <= i < k -> rd c i = Some a -> rd c' i = Some b -> Z.abs a = Z.abs b) g 0 16 st ltac:(lia)) as (c' & E & L & _ & H) end.
  - spl; auto. intros; lia.
  - intros j c' Hj (L & H1 & H2). destruct (rd_ok x j ltac:(lia)) as (v & ->). destruct (rd_ok c' j ltac:(lia)) as (k & Ek). rewrite Ek. cbn [bind]. rewrite wr_ok by lia.
    eexists. split; [reflexivity|]. split; [rewrite upd_len; exact L|]. split.
    + intros i Hi. rewrite rd_upd by lia. destruct (j =? i) eqn:A; [lia|]. apply H1. lia.
    + intros i a b Hi Ha. rewrite rd_upd by lia. destruct (j =? i) eqn:A.
      * assert (i = j) by lia. subst i. intros [= <-]. rewrite H1 in Ek by lia. rewrite Ha in Ek. injection Ek as <-. destruct (f_lt fl v (f_z fl 0)); lia.
      * apply H2; auto. lia.
  - exists c'. split; [exact E|]. split; [exact L|]. apply F2_rd; [lia|]. intros i a b Hi. apply H. lia.
Qed.

Lemma config_signs shape c c' : 0 <= shape < 4 -> config_ok shape c -> Forall2 (fun a b => Z.abs a = Z.abs b) c c' -> zlen c' = 16 -> config_ok shape c'.
Proof.
  intros Hs (H1 & H2) HF L. destruct (pulses_abs c c' HF 10) as (P1 & P2 & P3). split; [unfold zlen in L; lia|].
  rewrite P1, P2, P3 in H2. exact H2.
Qed.

(** ** Shape and gain *)
Lemma mse_ok (x cn : list F) g : zlen x = 16 -> zlen cn = 16 -> exists m, mse fl x cn g = Some m.
Proof.
  intros Lx Lc. unfold mse. match goal with |- context [for_ 0 16 ?g ?st] => destruct (for_ok (fun _ : F => True) g 0 16 st) as (d & -> & _) end; try lia; auto; [|eauto].
  intros i d Hi _. destruct (rd_ok x i ltac:(lia)) as (s & ->). destruct (rd_ok cn i ltac:(lia)) as (c & ->). cbn [bind]. eauto.
Qed.

Lemma shape_gain_ok (x : list F) cns : zlen x = 16 -> zlen cns = 4 -> Forall (fun cn => zlen cn = 16) cns ->
  exists shape gain, shape_gain fl x cns = Some (shape, gain) /\ 0 <= shape < 4 /\ 0 <= gain < sns_ngains shape.
Proof.
  intros Lx Lc Hc. unfold shape_gain. cbv zeta. set (fm := f_dy fl 16777215 (-104)). clearbody fm.
  match goal with |- context [for_ 0 4 ?g ?st] => destruct (for_ok (fun t : Z * Z * F => let '(shape, gain, _) := t in 0 <= shape < 4 /\ 0 <= gain < sns_ngains shape) g 0 4 st) as (((shape & gain) & m) & -> & H) end; try lia.
  - destruct (gains_ok 0 ltac:(lia)) as (_ & _ & _ & _ & A). lia.
  - intros ic ((shape & gain) & m) Hi H. destruct (gains_ok ic Hi) as (g & -> & G1 & G2 & G3). cbn [bind].
    destruct (rd_ok cns ic ltac:(lia)) as (cn & Ecn). rewrite Ecn. cbn [bind]. pose proof (proj1 (Forall_forall _ _) Hc cn (rd_In _ _ _ Ecn)) as Lcn. cbv beta in Lcn.
    rewrite G1. match goal with |- context [for_ 0 (sns_ngains ic) ?g ?st] => destruct (for_ok (fun t : Z * F => 0 <= fst t < sns_ngains ic) g 0 (sns_ngains ic) st) as ((cg & cm) & -> & Hg) end; try lia.
    + cbn [fst]. lia.
    + intros ig (cg & cm) Hg H0. destruct (rd_ok (snd g) ig ltac:(lia)) as (gv & ->). cbn [bind]. destruct (mse_ok x cn (f_dy fl gv 12) Lx Lcn) as (mm & ->). cbn [bind].
      eexists. split; [reflexivity|]. destruct (f_lt fl mm cm); cbn [fst] in *; lia.
    + cbn [bind]. eexists. split; [reflexivity|]. destruct (f_lt fl cm m); [|exact H]. cbn [fst] in Hg. lia.
  - cbn [bind]. exists shape, gain. split; [reflexivity|exact H].
Qed.

Lemma residual_ok (scf : list F) lf hf : zlen scf = 16 -> zlen lf = 8 -> zlen hf = 8 -> exists r, residual fl scf lf hf = Some r /\ zlen r = 16.
Proof.
  intros Ls Ll Lh. unfold residual.
  match goal with |- context [for_ 0 8 ?g []] => destruct (for_inv (fun k (l : list F) => zlen l = k) g 0 8 [] ltac:(lia)) as (a & -> & La) end.
  - reflexivity.
  - intros i l Hi L. destruct (rd_ok scf i ltac:(lia)) as (s & ->). destruct (rd_ok lf i ltac:(lia)) as (c & ->). cbn [bind]. eexists. split; [reflexivity|]. rewrite zlen_snoc. lia.
  - cbn [bind]. match goal with |- context [for_ 0 8 ?g a] => destruct (for_inv (fun k (l : list F) => zlen l = 8 + k) g 0 8 a ltac:(lia)) as (b & -> & Lb) end.
    + lia.
    + intros i l Hi L. destruct (rd_ok scf (8 + i) ltac:(lia)) as (s & ->). destruct (rd_ok hf i ltac:(lia)) as (c & ->). cbn [bind]. eexists. split; [reflexivity|]. rewrite zlen_snoc. lia.
    + eauto.
Qed.

Lemma magnitudes_ok (x : list F) : zlen x = 16 -> exists xm s, magnitudes fl x = Some (xm, s) /\ zlen xm = 16.
Proof.
  intros L. unfold magnitudes. match goal with |- context [for_ 0 16 ?g ?st] => destruct (for_inv (fun k (t : list F * F) => zlen (fst t) = k) g 0 16 st ltac:(lia)) as ((xm & s) & -> & Lm) end.
  - reflexivity.
  - intros i (xm & s) Hi Lm. destruct (rd_ok x i ltac:(lia)) as (v & ->). cbn [bind]. eexists. split; [reflexivity|]. cbn [fst] in *. rewrite zlen_snoc. lia.
  - eauto.
Qed.

(** The projection of the residual of scale factors is in the pyramid. *)
Definition projection_ok (scf : list F) (lf hf : Z) : Prop :=
  forall lfcb hfcb r x xm s, rd sns_lfcb lf = Some lfcb -> rd sns_hfcb hf = Some hfcb -> residual fl scf lfcb hfcb = Some r ->
    dct16_forward fl r = Some x -> magnitudes fl x = Some (xm, s) -> floors_ok xm s.

Lemma rd4 {A} (a b c d v : A) i : 0 <= i < 4 -> rd [a; b; c; d] i = Some v -> (i = 0 /\ v = a) \/ (i = 1 /\ v = b) \/ (i = 2 /\ v = c) \/ (i = 3 /\ v = d).
Proof. intros H. assert (A0 : i = 0 \/ i = 1 \/ i = 2 \/ i = 3) by lia. destruct A0 as [->|[->|[->| ->]]]; cbn; intros [= <-]; auto 6. Qed.

Lemma quantize_ok (scf : list F) lf hf : zlen scf = 16 -> 0 <= lf < 32 -> 0 <= hf < 32 -> projection_ok scf lf hf ->
  exists cs cns shape gain c cn, quantize fl scf lf hf = Some (cs, cns, shape, gain) /\ 0 <= shape < 4 /\ 0 <= gain < sns_ngains shape /\
    rd cs shape = Some c /\ config_ok shape c /\ rd cns shape = Some cn /\ normalize fl c = Some cn /\ zlen cn = 16.
Proof.
  intros L Hl Hh HP. unfold quantize. destruct (mat_row 32 8 sns_lfcb lf lfcb_mat Hl) as (lfcb & El & Ll). destruct (mat_row 32 8 sns_hfcb hf hfcb_mat Hh) as (hfcb & Eh & Lh).
  rewrite El, Eh. cbn [bind]. destruct (residual_ok scf lfcb hfcb L Ll Lh) as (r & Er & Lr). rewrite Er. cbn [bind].
  destruct (dct16_forward_ok r Lr) as (x & Ex & Lx). rewrite Ex. cbn [bind]. destruct (magnitudes_ok x Lx) as (xm & s & Em & Lm). rewrite Em. cbn [bind fst snd].
  specialize (HP _ _ _ _ _ _ El Eh Er Ex Em). destruct (configurations_ok xm s Lm HP) as (c0 & c1 & c2 & c3 & Ec & K0 & K1 & K2 & K3). rewrite Ec. cbn [bind].
  assert (KZ : forall i c, 0 <= i < 4 -> rd [c0; c1; c2; c3] i = Some c -> config_ok i c).
  { intros i c Hi Hc. apply rd4 in Hc; [|exact Hi]. destruct Hc as [(-> & ->)|[(-> & ->)|[(-> & ->)|(-> & ->)]]]; assumption. }
  destruct (build_ok (fun i => do c <- rd [c0; c1; c2; c3] i; signs fl x c) 0 4 [] ltac:(lia)) as (cs & Ecs & Lcs & Hcs).
  { intros i Hi. destruct (rd_ok [c0; c1; c2; c3] i ltac:(unfold zlen; cbn [length]; lia)) as (c & Eci). rewrite Eci. cbn [bind]. destruct (KZ i c Hi Eci) as (A & _).
    destruct (signs_ok x c Lx) as (c' & E' & _); [unfold zlen; lia|eauto]. }
  rewrite (for_ext _ (fun i l => do v <- (do c <- rd [c0; c1; c2; c3] i; signs fl x c); Some (l ++ [v]))); [|intros i t Hi; destruct (rd [c0; c1; c2; c3] i); reflexivity].
  rewrite Ecs. cbn [bind app].
  assert (KS : forall i c, 0 <= i < 4 -> rd cs i = Some c -> config_ok i c).
  { intros i c Hi Hc. specialize (Hcs i Hi). rewrite Z.sub_0_r in Hcs. rewrite Hc in Hcs.
    destruct (rd_ok [c0; c1; c2; c3] i ltac:(unfold zlen; cbn [length]; lia)) as (c' & Eci). rewrite Eci in Hcs. cbn [bind] in Hcs. pose proof (KZ i c' Hi Eci) as A.
    destruct (signs_ok x c' Lx) as (c'' & E' & L' & F'); [destruct A as (A & _); unfold zlen; lia|]. rewrite E' in Hcs. injection Hcs as ->. eapply config_signs; eauto. }
  destruct (build_ok (fun i => do c <- rd cs i; normalize fl c) 0 4 [] ltac:(lia)) as (cns & Ecns & Lcns & Hcns).
  { intros i Hi. destruct (rd_ok cs i ltac:(lia)) as (c & Eci). rewrite Eci. cbn [bind]. destruct (KS i c Hi Eci) as (A & _).
    destruct (normalize_ok c) as (c' & E' & _); [unfold zlen; lia|eauto]. }
  rewrite (for_ext _ (fun i l => do v <- (do c <- rd cs i; normalize fl c); Some (l ++ [v]))); [|intros i t Hi; destruct (rd cs i); reflexivity].
  rewrite Ecns. cbn [bind app].
  assert (KN : forall i cn, 0 <= i < 4 -> rd cns i = Some cn -> exists c, rd cs i = Some c /\ normalize fl c = Some cn /\ zlen cn = 16).
  { intros i cn Hi Hc. specialize (Hcns i Hi). rewrite Z.sub_0_r in Hcns. rewrite Hc in Hcns. destruct (rd_ok cs i ltac:(lia)) as (c & Eci). rewrite Eci in Hcns. cbn [bind] in Hcns.
    exists c. split; [exact Eci|]. split; [auto|]. destruct (KS i c Hi Eci) as (A & _). destruct (normalize_ok c) as (c' & E' & L'); [unfold zlen; lia|]. rewrite E' in Hcns. injection Hcns as ->. exact L'. }
  destruct (shape_gain_ok x cns Lx ltac:(lia)) as (shape & gain & Esg & Hs & Hg).
  { apply Forall_forall. intros cn Hc. apply In_nth_error in Hc as (k & Hk). assert (B : (k < length cns)%nat) by (apply nth_error_Some; congruence). unfold zlen in Lcns.
    destruct (KN (Z.of_nat k) cn ltac:(lia)) as (c & _ & _ & A); [|exact A]. unfold rd. destruct (Z.of_nat k <? 0) eqn:C; [lia|]. rewrite Nat2Z.id. exact Hk. }
  rewrite Esg. cbn [bind fst snd]. destruct (rd_ok cns shape ltac:(lia)) as (cn & Ecn). destruct (KN shape cn Hs Ecn) as (c & Ec' & En & Ln).
  exists cs, cns, shape, gain, c, cn. spl; auto; try lia.
Qed.

Lemma unquantize_ok lf hf (cn : list F) shape gain : 0 <= lf < 32 -> 0 <= hf < 32 -> zlen cn = 16 -> 0 <= shape < 4 -> 0 <= gain < sns_ngains shape ->
  exists scf, SnsModel.unquantize fl lf hf cn shape gain = Some scf /\ zlen scf = 16.
Proof.
  intros Hl Hh L Hs Hg. unfold SnsModel.unquantize. destruct (mat_row 32 8 sns_lfcb lf lfcb_mat Hl) as (lfcb & -> & Ll). destruct (mat_row 32 8 sns_hfcb hf hfcb_mat Hh) as (hfcb & -> & Lh).
  cbn [bind]. destruct (gains_ok shape Hs) as (g & -> & G1 & G2 & G3). cbn [bind]. destruct (rd_ok (snd g) gain ltac:(lia)) as (gv & ->). cbn [bind].
  destruct (dct16_inverse_ok cn L) as (y & -> & Ly). cbn [bind].
  match goal with |- context [for_ 0 8 ?g ?st] => destruct (for_ok (fun l : list F => zlen l = 16) g 0 8 st) as (a & -> & La) end; try lia.
  - intros i l Hi Li. destruct (rd_ok lfcb i ltac:(lia)) as (c & ->). destruct (rd_ok l i ltac:(lia)) as (v & ->). cbn [bind]. rewrite wr_ok by lia. eexists. split; [reflexivity|]. rewrite upd_len. exact Li.
  - cbn [bind]. apply for_ok; [lia|exact La|]. intros i l Hi Li. destruct (rd_ok hfcb (i - 8) ltac:(lia)) as (c & ->). destruct (rd_ok l i ltac:(lia)) as (v & ->). cbn [bind]. rewrite wr_ok by lia. eexists. split; [reflexivity|]. rewrite upd_len. exact Li.
Qed.
End Sns.
