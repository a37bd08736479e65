(** * Proofs about the energies of the bands and the bandwidth detector *)
From Coq Require Import ZArith List Bool Lia.
From Verif Require Import Base ConfigModel SideModel SideSpec Tables FloatOps LoopProofs TnsProofs BandModel.
Import ListNotations.
Local Open Scope Z_scope.

(** Elements of indexes a to b - 1. *)
Definition part {A} (l : list A) (a b : Z) : list A := firstn (Z.to_nat (b - a)) (skipn (Z.to_nat a) l).
(** Sum, in the order of the list. *)
Definition fsum {F} (fl : fops F) (l : list F) : F :=
  match l with [] => f_z fl 0 | v :: l => fold_left (f_add fl) l v end.
Definition squares {F} (fl : fops F) (l : list F) : list F := map (fun v => f_mul fl v v) l.
Definition mean_square {F} (fl : fops F) (l : list F) : F := f_div fl (fsum fl (squares fl l)) (f_z fl (zlen l)).

Lemma part_nil {A} (l : list A) a : part l a a = [].
Proof. unfold part. rewrite Z.sub_diag. reflexivity. Qed.

Lemma nth_error_skipn {A} (l : list A) : forall n v, nth_error l n = Some v -> skipn n l = v :: skipn (Datatypes.S n) l.
Proof.
  induction l as [|w l IH]; intros [|n] v H; cbn [nth_error] in H; try discriminate.
  - injection H as ->. reflexivity.
  - cbn [skipn]. rewrite (IH n v H). reflexivity.
Qed.

Lemma part_cons {A} (l : list A) a b v : a < b -> rd l a = Some v -> part l a b = v :: part l (a + 1) b.
Proof.
  intros H E. pose proof (rd_range _ _ _ E) as R. unfold rd in E. destruct (a <? 0) eqn:E0; [lia|].
  unfold part. rewrite (nth_error_skipn _ _ _ E). replace (Z.to_nat (b - a)) with (Datatypes.S (Z.to_nat (b - (a + 1)))) by lia.
  cbn [firstn]. replace (Z.to_nat (a + 1)) with (Datatypes.S (Z.to_nat a)) by lia. reflexivity.
Qed.

Lemma skipn_plus {A} (l : list A) n : forall m, skipn n (skipn m l) = skipn (n + m) l.
Proof.
  induction l as [|v l IH]; intros m; [rewrite !skipn_nil; reflexivity|]. destruct m as [|m].
  - rewrite Nat.add_0_r. reflexivity.
  - rewrite Nat.add_succ_r. cbn [skipn]. apply IH.
Qed.

Lemma part_len {A} (l : list A) a b : 0 <= a <= b -> b <= zlen l -> zlen (part l a b) = b - a.
Proof. intros H L. unfold part, zlen in *. rewrite firstn_length, skipn_length. lia. Qed.

Lemma part_app {A} (l : list A) a b c : 0 <= a <= b -> b <= c <= zlen l -> part l a c = part l a b ++ part l b c.
Proof.
  intros H L. unfold part. replace (Z.to_nat (c - a)) with (Z.to_nat (b - a) + Z.to_nat (c - b))%nat by lia.
  replace (Z.to_nat b) with (Z.to_nat (b - a) + Z.to_nat a)%nat by lia. rewrite <- skipn_plus.
  generalize (skipn (Z.to_nat a) l) (Z.to_nat (b - a)) (Z.to_nat (c - b)). clear. intros l n m. revert l.
  induction n as [|n IH]; intros l; [reflexivity|]. destruct l as [|v l].
  - cbn [plus firstn skipn]. rewrite firstn_nil. reflexivity.
  - cbn [plus firstn skipn app]. rewrite (IH l). reflexivity.
Qed.

Lemma for_fold {A S} (g : S -> A -> S) (x : list A) a b s : 0 <= a <= b -> b <= zlen x ->
  for_ a b (fun i s => do v <- rd x i; Some (g s v)) s = Some (fold_left g (part x a b) s).
Proof.
  intros H L. unfold for_. remember (Z.to_nat (b - a)) as n eqn:E. revert a s H E. induction n as [|n IH]; intros a s H E.
  - cbn [loop]. replace b with a by lia. rewrite part_nil. reflexivity.
  - cbn [loop]. destruct (rd_ok x a ltac:(lia)) as (v & Ev). rewrite Ev. cbn [bind]. rewrite (IH (a + 1) (g s v)) by lia.
    rewrite (part_cons x a b v ltac:(lia) Ev). reflexivity.
Qed.

Lemma fold_squares {F} (fl : fops F) l : forall s, fold_left (fun s v => f_add fl s (f_mul fl v v)) l s = fold_left (f_add fl) (squares fl l) s.
Proof. induction l as [|v l IH]; intros s; [reflexivity|]. cbn [fold_left squares map]. apply IH. Qed.

Lemma band_energy_ok {F} (fl : fops F) lim x ib lo hi :
  rd lim ib = Some lo -> rd lim (ib + 1) = Some hi -> 0 <= lo < hi -> hi <= zlen x ->
  band_energy fl lim x ib = Some (mean_square fl (part x lo hi)).
Proof.
  intros E1 E2 H L. unfold band_energy. rewrite E1, E2. cbn [bind]. destruct (rd_ok x lo ltac:(lia)) as (v & Ev). rewrite Ev. cbn [bind].
  rewrite (for_fold (fun s v => f_add fl s (f_mul fl v v)) x (lo + 1) hi _ ltac:(lia) L). cbn [bind]. rewrite fold_squares.
  unfold mean_square. rewrite (part_len x lo hi) by lia. rewrite (part_cons x lo hi v ltac:(lia) Ev). reflexivity.
Qed.

(** The tables. *)
Fixpoint increasing (l : list Z) : bool :=
  match l with a :: ((b :: _) as r) => (a <? b) && increasing r | _ => true end.
Definition lim_check (dt sr : Z) : bool :=
  let lim := lim_of dt sr in
  (20 <=? num_bands dt sr) && (num_bands dt sr <=? MAX_BANDS) && (zlen lim =? num_bands dt sr + 1) && (znth lim 0 1 =? 0) &&
  (znth lim (num_bands dt sr) 0 =? c_ne dt sr) && increasing lim.

Lemma lim_checked dt sr : tns_cfg dt sr -> lim_check dt sr = true.
Proof. revert dt sr. apply all_cfg. vm_compute. reflexivity. Qed.

Lemma increasing_rd : forall l b, increasing l = true -> 0 <= b -> b + 1 < zlen l ->
  exists lo hi, rd l b = Some lo /\ rd l (b + 1) = Some hi /\ lo < hi.
Proof.
  induction l as [|a l IH]; intros j H Hj L; [unfold zlen in L; cbn in L; lia|].
  destruct l as [|b l]; [unfold zlen in L; cbn in L; lia|]. cbn [increasing] in H. fold (increasing (b :: l)) in H.
  apply andb_prop in H as [H H2]. destruct (Z.eq_dec j 0) as [->|N].
  - exists a, b. spl; try reflexivity; lia.
  - destruct (IH (j - 1) H2 ltac:(lia)) as (u & v & E1 & E2 & H3).
    + unfold zlen in *. cbn [length] in *. lia.
    + exists u, v. unfold rd in *. rewrite <- E1, <- E2.
      replace (Z.to_nat (j + 1)) with (Datatypes.S (Z.to_nat (j - 1 + 1))) by lia.
      replace (Z.to_nat j) with (Datatypes.S (Z.to_nat (j - 1))) by lia. cbn [nth_error].
      destruct (j <? 0) eqn:A1, (j + 1 <? 0) eqn:A2, (j - 1 <? 0) eqn:A3, (j - 1 + 1 <? 0) eqn:A4; try lia. spl; try reflexivity; lia.
Qed.

Lemma increasing_le l : increasing l = true -> forall n i a b, rd l i = Some a -> rd l (i + Z.of_nat n) = Some b -> a + Z.of_nat n <= b.
Proof.
  intros H. induction n as [|n IH]; intros i a b E1 E2.
  - rewrite Z.add_0_r in E2. rewrite E1 in E2. injection E2 as <-. lia.
  - pose proof (rd_range _ _ _ E1). pose proof (rd_range _ _ _ E2).
    destruct (increasing_rd l i H ltac:(lia) ltac:(lia)) as (lo & hi & F1 & F2 & Hl). rewrite E1 in F1. injection F1 as <-.
    specialize (IH (i + 1) hi b F2). replace (i + 1 + Z.of_nat n) with (i + Z.of_nat (Datatypes.S n)) in IH by lia. specialize (IH E2). lia.
Qed.

Lemma znth_rd {A} (l : list A) i d v : 0 <= i < zlen l -> znth l i d = v -> rd l i = Some v.
Proof. intros H <-. unfold znth. destruct (i <? 0) eqn:E; [lia|]. apply rd_nth. exact H. Qed.

(** Bounds of the bands: from 0 to the number of coefficients of a frame, none empty. *)
Lemma lim_ok dt sr : tns_cfg dt sr ->
  20 <= num_bands dt sr <= MAX_BANDS /\ zlen (lim_of dt sr) = num_bands dt sr + 1 /\
  rd (lim_of dt sr) 0 = Some 0 /\ rd (lim_of dt sr) (num_bands dt sr) = Some (c_ne dt sr) /\
  (forall b, 0 <= b < num_bands dt sr -> exists lo hi, rd (lim_of dt sr) b = Some lo /\ rd (lim_of dt sr) (b + 1) = Some hi /\ 0 <= lo < hi /\ hi <= c_ne dt sr).
Proof.
  intros C. pose proof (lim_checked dt sr C) as H. unfold lim_check in H. cbv zeta in H.
  generalize dependent (lim_of dt sr). intros lim H. generalize dependent (num_bands dt sr). intros nb H.
  repeat (apply andb_prop in H as [H ?]). rename H0 into HI.
  assert (R0 : rd lim 0 = Some 0).
  { rewrite (rd_nth lim 0 1) by lia. f_equal. unfold znth in *. cbn in *. lia. }
  assert (Rn : rd lim nb = Some (c_ne dt sr)).
  { apply (znth_rd lim nb 0); lia. }
  spl; auto; try lia. intros b Hb. destruct (increasing_rd lim b HI ltac:(lia) ltac:(lia)) as (lo & hi & E1 & E2 & Hl).
  pose proof (increasing_le lim HI (Z.to_nat b) 0 0 lo R0) as A. rewrite Z2Nat.id in A by lia. specialize (A E1).
  pose proof (increasing_le lim HI (Z.to_nat (nb - (b + 1))) (b + 1) hi (c_ne dt sr) E2) as B. rewrite Z2Nat.id in B by lia.
  replace (b + 1 + (nb - (b + 1))) with nb in B by lia. specialize (B Rn). exists lo, hi. spl; auto; lia.
Qed.

(** Bands counted as high for the near Nyquist flag. *)
Definition high_bands (dt : Z) : Z := znth [2; 3; 4; 2] dt 0.

Lemma rd_snoc {A} (l : list A) v i : rd (l ++ [v]) i = if i =? zlen l then Some v else rd l i.
Proof.
  unfold rd, zlen. destruct (i <? 0) eqn:E; destruct (i =? Z.of_nat (length l)) eqn:E2; try lia; try reflexivity.
  - rewrite nth_error_app2 by lia. replace (Z.to_nat i - length l)%nat with O by lia. reflexivity.
  - destruct (Z_lt_le_dec i (Z.of_nat (length l))) as [K|K].
    + apply nth_error_app1. lia.
    + rewrite (proj2 (nth_error_None l _)) by lia. apply nth_error_None. rewrite app_length. cbn [length]. lia.
Qed.

Lemma zlen_snoc {A} (l : list A) v : zlen (l ++ [v]) = zlen l + 1.
Proof. unfold zlen. rewrite app_length. cbn [length]. lia. Qed.

Lemma energy_ok {F} (fl : fops F) dt sr x : tns_cfg dt sr -> c_ne dt sr <= zlen x ->
  exists nn e, energy_compute fl dt sr x = Some (nn, e) /\ zlen e = num_bands dt sr /\
    (forall b lo hi, 0 <= b < num_bands dt sr -> rd (lim_of dt sr) b = Some lo -> rd (lim_of dt sr) (b + 1) = Some hi ->
       rd e b = Some (mean_square fl (part x lo hi))) /\
    nn = (let h := num_bands dt sr - high_bands dt in
          f_lt fl (f_mul fl (f_z fl 30) (fold_left (f_add fl) (part e 0 h) (f_z fl 0)))
                  (fold_left (f_add fl) (part e h (num_bands dt sr)) (f_z fl 0))).
Proof.
  intros C L. destruct (lim_ok dt sr C) as (Hn & Hl & _ & _ & Hb). unfold energy_compute. cbv zeta.
  assert (Hh : 0 <= high_bands dt <= 4).
  { assert (A : dt = 0 \/ dt = 1 \/ dt = 2 \/ dt = 3) by (unfold tns_cfg in C; lia). destruct A as [-> | [-> | [-> | ->]]]; vm_compute; split; discriminate. }
  fold (high_bands dt). set (h := num_bands dt sr - high_bands dt) in *. assert (H0 : 0 <= h <= num_bands dt sr) by lia. clearbody h.
  generalize dependent (num_bands dt sr). generalize dependent (lim_of dt sr). intros lim nb Hn Hl Hb H0.
  destruct (for_inv (fun k '(e, s0, s1) => zlen e = k /\
    (forall b lo hi, 0 <= b < k -> rd lim b = Some lo -> rd lim (b + 1) = Some hi -> rd e b = Some (mean_square fl (part x lo hi))) /\
    s0 = fold_left (f_add fl) (firstn (Z.to_nat h) e) (f_z fl 0) /\ s1 = fold_left (f_add fl) (skipn (Z.to_nat h) e) (f_z fl 0))
    (fun ib '(e, s0, s1) => do v <- band_energy fl lim x ib;
      Some (if ib <? h then (e ++ [v], f_add fl s0 v, s1) else (e ++ [v], s0, f_add fl s1 v))) 0 nb ([], f_z fl 0, f_z fl 0) ltac:(lia)) as (((e & s0) & s1) & E & Le & He & E0 & E1).
  - spl; try reflexivity.
    + intros. lia.
    + rewrite firstn_nil. reflexivity.
    + rewrite skipn_nil. reflexivity.
  - intros ib ((e & s0) & s1) Hi (Le & He & E0 & E1). destruct (Hb ib Hi) as (lo & hi & R1 & R2 & R3 & R4).
    rewrite (band_energy_ok fl lim x ib lo hi R1 R2 R3 ltac:(lia)). cbn [bind]. eexists. split; [reflexivity|].
    assert (G : forall b lo0 hi0, 0 <= b < ib + 1 -> rd lim b = Some lo0 -> rd lim (b + 1) = Some hi0 ->
      rd (e ++ [mean_square fl (part x lo hi)]) b = Some (mean_square fl (part x lo0 hi0))).
    { intros b lo0 hi0 Hb0 A1 A2. rewrite rd_snoc. destruct (b =? zlen e) eqn:Eb.
      - assert (b = ib) by lia. subst b. rewrite R1 in A1. rewrite R2 in A2. injection A1 as ->. injection A2 as ->. reflexivity.
      - apply He; auto. lia. }
    unfold zlen in Le. destruct (ib <? h) eqn:Eh; (split; [rewrite zlen_snoc; unfold zlen; lia|]); (split; [exact G|]).
    + rewrite firstn_app, skipn_app. rewrite (firstn_all2 e) by lia. replace (Z.to_nat h - length e)%nat with (Datatypes.S (Z.to_nat h - length e - 1)) by lia.
      cbn [firstn skipn]. rewrite firstn_nil, skipn_nil, fold_left_app, app_nil_r. rewrite E0, E1. rewrite (firstn_all2 e) by lia. split; reflexivity.
    + rewrite firstn_app, skipn_app. replace (Z.to_nat h - length e)%nat with O by lia. cbn [firstn skipn]. rewrite app_nil_r, fold_left_app, E0, E1. split; reflexivity.
  - rewrite E. cbn [bind]. eexists. exists e. split; [reflexivity|]. spl; auto. rewrite E0, E1. unfold part. unfold zlen in Le.
    replace (Z.to_nat (h - 0)) with (Z.to_nat h) by lia. cbn [Z.to_nat skipn]. rewrite (firstn_all2 (skipn (Z.to_nat h) e)); [reflexivity|].
    rewrite skipn_length. lia.
Qed.

(** ** Bandwidth detector *)

(** Sum of the energies of a region, and its threshold. *)
Definition loud {F} (fl : fops F) (e : list F) (k lo hi : Z) : bool :=
  f_le fl (f_z fl ((if k =? 0 then 20 else 10) * (hi - lo))) (fsum fl (part e lo hi)).

Definition region_check (dt sr : Z) : bool :=
  if (sr <=? 0) || is_hr sr then true
  else
    let bwr := bw_regions dt sr in
    (zlen bwr =? sr) && (sr <=? 4) &&
    forallb (fun k =>
      let '(lo, hi) := znth bwr k (0, 0) in
      (0 <=? lo) && (lo <? hi) && (hi <=? num_bands dt sr) && (c_ne dt k <=? znth (lim_of dt sr) lo (-1)) &&
      (1 <=? bw_l dt k) && (bw_l dt k <=? 4) && (0 <=? lo - 2 * bw_l dt k + 1) && (lo + 1 <? num_bands dt sr) && (0 <? znth bw_tc k 0)) (map Z.of_nat (seq 0 (Z.to_nat sr))).

Lemma region_checked dt sr : tns_cfg dt sr -> region_check dt sr = true.
Proof. revert dt sr. apply all_cfg. vm_compute. reflexivity. Qed.

(** Region k of a sample rate: inside the bands, above the coefficients of bandwidth k. *)
Lemma region_ok dt sr k : tns_cfg dt sr -> is_hr sr = false -> 0 <= k < sr ->
  exists lo hi a, rd (bw_regions dt sr) k = Some (lo, hi) /\ 0 <= lo < hi /\ hi <= num_bands dt sr /\
    rd (lim_of dt sr) lo = Some a /\ c_ne dt k <= a /\
    1 <= bw_l dt k <= 4 /\ 0 <= lo - 2 * bw_l dt k + 1 /\ lo + 1 < num_bands dt sr /\ exists tc, rd bw_tc k = Some tc.
Proof.
  intros C Hr Hk. pose proof (region_checked dt sr C) as H. unfold region_check in H. rewrite Hr in H. destruct (sr <=? 0) eqn:E0; [lia|].
  cbn [orb] in H. cbv zeta in H. apply andb_prop in H as [H H2]. apply andb_prop in H as [H H1]. rewrite forallb_forall in H2.
  specialize (H2 k). destruct (lim_ok dt sr C) as (Hn & Hl & _ & _ & _). clear C. revert H2. generalize dependent (num_bands dt sr). intros nb. intros Hn Hl H2.
  generalize dependent (lim_of dt sr). intros lim Hl H2. generalize dependent (bw_l dt k). intros l H2. generalize dependent (bw_regions dt sr). intros bwr H H2.
  destruct (znth bwr k (0, 0)) as (lo & hi) eqn:E.
  assert (A : (0 <=? lo) && (lo <? hi) && (hi <=? nb) && (c_ne dt k <=? znth lim lo (-1)) &&
      (1 <=? l) && (l <=? 4) && (0 <=? lo - 2 * l + 1) && (lo + 1 <? nb) && (0 <? znth bw_tc k 0) = true).
  { apply H2. apply in_map_iff. exists (Z.to_nat k). split; [lia|]. apply in_seq. lia. }
  clear H2. repeat (apply andb_prop in A as [A ?]). exists lo, hi, (znth lim lo (-1)). spl; try lia.
  - apply (znth_rd bwr k (0, 0)); [lia|exact E].
  - apply (znth_rd lim lo (-1)); [|reflexivity]. unfold zlen in *. lia.
  - destruct (rd_ok bw_tc k) as (tc & Et); [|eauto]. unfold zlen, bw_tc. cbn [length]. lia.
Qed.

Lemma region_loud_ok {F} (fl : fops F) (e : list F) bwr k lo hi :
  rd bwr k = Some (lo, hi) -> 0 <= lo < hi -> hi <= zlen e -> region_loud fl e bwr k = Some (loud fl e k lo hi).
Proof.
  intros E H L. unfold region_loud. rewrite E. cbn [bind]. destruct (rd_ok e lo ltac:(lia)) as (v & Ev). rewrite Ev. cbn [bind].
  rewrite (for_fold (f_add fl) e (lo + 1) hi _ ltac:(lia) L). cbn [bind]. unfold loud. rewrite (part_cons e lo hi v ltac:(lia) Ev). reflexivity.
Qed.

(** The energy falls by the factor tc / 2^19 within l bands, about band i0. *)
Definition drops {F} (fl : fops F) (e : list F) (i0 l tc : Z) : Prop :=
  exists i a b, i0 - l + 1 <= i <= i0 + 1 /\ rd e (i - l) = Some a /\ rd e i = Some b /\ f_lt fl (f_mul fl (f_dy fl tc 19) b) a = true.

Lemma bw_drop_ok {F} (fl : fops F) (e : list F) i0 l tc : 1 <= l -> 0 <= i0 - 2 * l + 1 -> i0 + 1 < zlen e ->
  exists h, bw_drop fl e i0 l tc = Some h /\ (h = true <-> drops fl e i0 l tc).
Proof.
  intros Hl H0 H1. unfold bw_drop.
  destruct (for_inv (fun k (h : bool) => h = true <-> exists i a b, i0 - l + 1 <= i < k /\ rd e (i - l) = Some a /\ rd e i = Some b /\ f_lt fl (f_mul fl (f_dy fl tc 19) b) a = true)
    (fun i (hold : bool) => if hold then Some true else do a <- rd e (i - l); do b <- rd e i; Some (f_lt fl (f_mul fl (f_dy fl tc 19) b) a))
    (i0 - l + 1) (i0 + 2) false ltac:(lia)) as (h & E & H).
  - split; [discriminate|]. intros (i & a & b & Hi & _). lia.
  - intros i [|] Hi Hh.
    + eexists. split; [reflexivity|]. split; [|reflexivity]. intros _. destruct (proj1 Hh eq_refl) as (j & a & b & Hj & A). exists j, a, b. split; [lia|exact A].
    + destruct (rd_ok e (i - l) ltac:(lia)) as (a & Ea). destruct (rd_ok e i ltac:(lia)) as (b & Eb). rewrite Ea, Eb. cbn [bind].
      eexists. split; [reflexivity|]. split.
      * intros A. exists i, a, b. spl; auto; lia.
      * intros (j & a' & b' & Hj & A1 & A2 & A3). destruct (Z.eq_dec j i) as [->|N].
        -- rewrite Ea in A1. rewrite Eb in A2. injection A1 as ->. injection A2 as ->. exact A3.
        -- exfalso. assert (X : false = true); [|discriminate]. apply Hh. exists j, a', b'. spl; auto; lia.
  - exists h. split; [exact E|]. rewrite H. unfold drops. split; intros (i & a & b & Hi & A); exists i, a, b; (split; [lia|exact A]).
Qed.

(** The candidate: the regions from c are quiet, the one under is not. *)
Definition candidate {F} (fl : fops F) (dt sr : Z) (e : list F) (c : Z) : Prop :=
  0 <= c <= sr /\
  (forall k lo hi, c <= k < sr -> rd (bw_regions dt sr) k = Some (lo, hi) -> loud fl e k lo hi = false) /\
  (forall lo hi, 0 < c -> rd (bw_regions dt sr) (c - 1) = Some (lo, hi) -> loud fl e (c - 1) lo hi = true).
Definition drops_at {F} (fl : fops F) (dt sr : Z) (e : list F) (c : Z) : Prop :=
  exists lo hi tc, rd (bw_regions dt sr) c = Some (lo, hi) /\ rd bw_tc c = Some tc /\ drops fl e lo (bw_l dt c) tc.

Lemma bwdet_hr {F} (fl : fops F) dt sr e : sr <= 0 \/ is_hr sr = true -> bwdet_run fl dt sr e = Some sr.
Proof. intros H. unfold bwdet_run. destruct (sr <=? 0) eqn:E; [reflexivity|]. destruct H as [H|H]; [lia|]. rewrite H. reflexivity. Qed.

Lemma bwdet_ok {F} (fl : fops F) dt sr e : tns_cfg dt sr -> 0 < sr -> is_hr sr = false -> zlen e = num_bands dt sr ->
  exists c bw, bwdet_run fl dt sr e = Some bw /\ candidate fl dt sr e c /\
    ((bw = c /\ (c = sr \/ drops_at fl dt sr e c)) \/ (bw = sr /\ c < sr /\ ~ drops_at fl dt sr e c)).
Proof.
  intros C Hs Hr L. unfold bwdet_run. rewrite Hr. destruct (sr <=? 0) eqn:E0; [lia|]. cbn [orb]. cbv zeta.
  destruct (for_inv (fun k c => 0 <= c <= k /\
      (forall j lo hi, c <= j < k -> rd (bw_regions dt sr) j = Some (lo, hi) -> loud fl e j lo hi = false) /\
      (forall lo hi, 0 < c -> rd (bw_regions dt sr) (c - 1) = Some (lo, hi) -> loud fl e (c - 1) lo hi = true))
    (fun bw bw0 => do b <- region_loud fl e (bw_regions dt sr) bw; Some (if (b : bool) then bw + 1 else bw0)) 0 sr 0 ltac:(lia)) as (c & E & Hc).
  - spl; try lia.
  - intros k c Hk (H1 & H2 & H3). destruct (region_ok dt sr k C Hr Hk) as (lo & hi & a & R1 & R2 & R3 & _).
    rewrite (region_loud_ok fl e _ k lo hi R1 R2 ltac:(lia)). cbn [bind]. destruct (loud fl e k lo hi) eqn:B.
    + eexists. split; [reflexivity|]. spl; try lia.
      * intros lo' hi' _ A. replace (k + 1 - 1) with k in A |- * by lia. rewrite R1 in A. injection A as <- <-. exact B.
    + eexists. split; [reflexivity|]. spl; try lia; [|exact H3]. intros j lo' hi' Hj A. destruct (Z.eq_dec j k) as [->|N].
      * rewrite R1 in A. injection A as <- <-. exact B.
      * apply H2; auto. lia.
  - rewrite E. cbn [bind]. exists c. destruct (sr <=? c) eqn:E1.
    + exists c. spl; auto. left. split; [reflexivity|]. left. lia.
    + destruct (region_ok dt sr c C Hr ltac:(lia)) as (lo & hi & a & R1 & R2 & R3 & R4 & R5 & R6 & R7 & R8 & tc & R9).
      rewrite R1, R9. cbn [bind fst]. destruct (bw_drop_ok fl e lo (bw_l dt c) tc ltac:(lia) ltac:(lia) ltac:(lia)) as (h & Eh & Hh).
      rewrite Eh. cbn [bind]. eexists. split; [reflexivity|]. split; [exact Hc|].
      assert (D : drops_at fl dt sr e c <-> h = true).
      { rewrite Hh. unfold drops_at. split.
        - intros (lo' & hi' & tc' & A1 & A2 & A3). rewrite R1 in A1. rewrite R9 in A2. injection A1 as <- <-. injection A2 as <-. exact A3.
        - intros A. exists lo, hi, tc. auto. }
      destruct h.
      * left. split; [reflexivity|]. right. apply D. reflexivity.
      * right. spl; try lia. intros A. apply D in A. discriminate.
Qed.
