(** * Enumeration of pulse vectors is a bijection *)
From Coq Require Import ZArith List Bool Lia ZifyBool.
From Verif Require Import Base BaseProofs Tables PvqModel SideModel SideSpec.
Import ListNotations.
Local Open Scope Z_scope.

Lemma pulses_cons x t : pulses (x :: t) = Z.abs x + pulses t.
Proof. reflexivity. Qed.
Lemma pulses_nonneg c : 0 <= pulses c.
Proof. induction c as [|x c IH]; cbn [pulses fold_right]; [lia|]. fold (pulses c). lia. Qed.
Lemma pulses_app a b : pulses (a ++ b) = pulses a + pulses b.
Proof.
  induction a as [|x a IH]; cbn [app]; [reflexivity|]. rewrite !pulses_cons, IH. lia.
Qed.
Lemma pulses_zeros n : pulses (repeat 0 n) = 0.
Proof. induction n as [|n IH]; [reflexivity|]. cbn [repeat]. rewrite pulses_cons, IH. lia. Qed.
Lemma pulses_0 c : pulses c = 0 -> c = repeat 0 (length c).
Proof.
  induction c as [|x c IH]; intros H; [reflexivity|]. rewrite pulses_cons in H.
  pose proof (pulses_nonneg c). cbn [length repeat]. f_equal; [lia|]. apply IH. lia.
Qed.

(** Number of indexes of the vectors of [n] coefficients and [k] pulses, the
    sign of the first one apart. *)
Fixpoint cnt (n : nat) (k : Z) : Z :=
  match n with
  | O => 0
  | S m => mpvq_offset (Z.of_nat m) k + cnt m k
  end.

(** Recurrence of the table. *)
Definition chk_offsets : bool :=
  forallb (fun m =>
    (mpvq_offset (Z.of_nat m) 0 =? 0) && (mpvq_offset (Z.of_nat m) 1 =? 1) &&
    forallb (fun j => mpvq_offset (Z.of_nat m) (j + 1) =?
                      mpvq_offset (Z.of_nat m) j + 2 * cnt m j) [1;2;3;4;5;6;7;8;9])
    (seq 0 16).

Lemma offsets_rec m : (m < 16)%nat ->
  mpvq_offset (Z.of_nat m) 0 = 0 /\ mpvq_offset (Z.of_nat m) 1 = 1 /\
  forall j, 1 <= j <= 9 ->
    mpvq_offset (Z.of_nat m) (j + 1) = mpvq_offset (Z.of_nat m) j + 2 * cnt m j.
Proof.
  intros Hm. assert (H : chk_offsets = true) by (vm_compute; reflexivity).
  unfold chk_offsets in H. rewrite forallb_forall in H.
  specialize (H m ltac:(apply in_seq; lia)). cbv beta in H.
  apply andb_true_iff in H. destruct H as [H H3]. apply andb_true_iff in H. destruct H as [H1 H2].
  rewrite forallb_forall in H3. split; [lia|]. split; [lia|].
  intros j Hj. specialize (H3 j). cbv beta in H3. apply Z.eqb_eq. apply H3. cbn [In]. lia.
Qed.

Lemma cnt_offset_nonneg n k : (n <= 16)%nat -> 1 <= k <= 10 ->
  0 <= cnt n k /\ ((n < 16)%nat -> 1 <= mpvq_offset (Z.of_nat n) k).
Proof.
  intros Hn Hk. revert k Hk. induction n as [|n IH]; intros k Hk.
  - split; [cbn; lia|]. intros Hlt. destruct (offsets_rec 0 Hlt) as (_ & H1 & H2).
    assert (Hi : forall d : nat, 1 + Z.of_nat d <= 10 -> 1 <= mpvq_offset (Z.of_nat 0) (1 + Z.of_nat d)).
    { induction d as [|d IHd]; intros Hd; [change (1 + Z.of_nat 0) with 1; lia|].
      replace (1 + Z.of_nat (S d)) with (1 + Z.of_nat d + 1) by lia. rewrite H2 by lia.
      cbn [cnt]. specialize (IHd ltac:(lia)). lia. }
    specialize (Hi (Z.to_nat (k - 1)) ltac:(lia)).
    replace (1 + Z.of_nat (Z.to_nat (k - 1))) with k in Hi by lia. exact Hi.
  - assert (Hn' : (n < 16)%nat) by lia.
    assert (HC : forall k, 1 <= k <= 10 -> 0 <= cnt (S n) k).
    { intros k' Hk'. cbn [cnt]. destruct (IH ltac:(lia) k' Hk') as (H1 & H2).
      specialize (H2 Hn'). lia. }
    split; [apply HC; exact Hk|]. intros Hlt.
    destruct (offsets_rec (S n) Hlt) as (_ & H1 & H2).
    assert (Hi : forall d : nat, 1 + Z.of_nat d <= 10 ->
      1 <= mpvq_offset (Z.of_nat (S n)) (1 + Z.of_nat d)).
    { induction d as [|d IHd]; intros Hd; [change (1 + Z.of_nat 0) with 1; lia|].
      replace (1 + Z.of_nat (S d)) with (1 + Z.of_nat d + 1) by lia. rewrite H2 by lia.
      specialize (HC (1 + Z.of_nat d) ltac:(lia)). specialize (IHd ltac:(lia)). lia. }
    specialize (Hi (Z.to_nat (k - 1)) ltac:(lia)).
    replace (1 + Z.of_nat (Z.to_nat (k - 1))) with k in Hi by lia. exact Hi.
Qed.

Lemma offset_mono m j k : (m < 16)%nat -> 0 <= j <= k -> k <= 10 ->
  mpvq_offset (Z.of_nat m) j <= mpvq_offset (Z.of_nat m) k.
Proof.
  intros Hm Hj Hk. destruct (offsets_rec m Hm) as (H0 & H1 & H2).
  assert (Hi : forall d : nat, j + Z.of_nat d <= 10 ->
    mpvq_offset (Z.of_nat m) j <= mpvq_offset (Z.of_nat m) (j + Z.of_nat d)).
  { induction d as [|d IHd]; intros Hd; [rewrite Z.add_0_r; lia|].
    specialize (IHd ltac:(lia)).
    destruct (Z.eq_dec (j + Z.of_nat d) 0) as [E|E].
    - replace (j + Z.of_nat (S d)) with 1 by lia. replace j with 0 by lia. lia.
    - replace (j + Z.of_nat (S d)) with (j + Z.of_nat d + 1) by lia. rewrite H2 by lia.
      destruct (cnt_offset_nonneg m (j + Z.of_nat d) ltac:(lia) ltac:(lia)) as (Hc & _). lia. }
  specialize (Hi (Z.to_nat (k - j)) ltac:(lia)).
  replace (j + Z.of_nat (Z.to_nat (k - j))) with k in Hi by lia. exact Hi.
Qed.

(** ** Enumeration, from the first coefficient *)
Fixpoint enum (c : list Z) : Z * bool :=
  match c with
  | [] => (0, false)
  | x :: t =>
      if pulses t =? 0 then (0, x <? 0)
      else
        let '(idx, ls) := enum t in
        let '(idx, ls) := if x =? 0 then (idx, ls) else (2 * idx + b2z ls, x <? 0) in
        (idx + mpvq_offset (zlen t) (pulses t), ls)
  end.

Lemma enum_nonneg c : zlen c <= 16 -> pulses c <= 10 -> 0 <= fst (enum c).
Proof.
  induction c as [|x t IH]; intros Hn Hk; cbn [enum]; [cbn; lia|].
  rewrite zlen_cons in Hn. rewrite pulses_cons in Hk. pose proof (pulses_nonneg t).
  destruct (pulses t =? 0) eqn:E; [cbn; lia|].
  specialize (IH ltac:(lia) ltac:(lia)). destruct (enum t) as [idx ls]. cbn [fst] in IH.
  pose proof (cnt_offset_nonneg (length t) (pulses t) ltac:(unfold zlen in *; lia) ltac:(lia)) as (_ & Ho).
  specialize (Ho ltac:(unfold zlen in *; lia)).
  change (Z.of_nat (length t)) with (zlen t) in Ho.
  destruct (x =? 0); cbn [fst]; [lia|]. destruct ls; cbn [b2z]; lia.
Qed.

Lemma lor_shl1 idx b : 0 <= idx -> Z.lor (shl idx 1) (b2z b) = 2 * idx + b2z b.
Proof.
  intros H. rewrite Z.lor_comm. unfold shl. rewrite (lor_add (b2z b) idx 1).
  - change (2 ^ 1) with 2. lia.
  - lia.
  - change (2 ^ 1) with 2. destruct b; cbn; lia.
Qed.

Lemma enum_loop_ok p : forall t, zlen (p ++ t) <= 16 -> pulses (p ++ t) <= 10 -> 0 < pulses t ->
  enum_loop (rev p) (zlen t) (pulses t) (fst (enum t)) (snd (enum t)) = enum (p ++ t).
Proof.
  induction p as [|x p IH] using rev_ind; intros t Hn Hk Ht.
  - cbn. destruct (enum t); reflexivity.
  - rewrite rev_app_distr. cbn [rev app enum_loop].
    rewrite <- app_assoc in Hn, Hk |- *. cbn [app] in Hn, Hk |- *.
    assert (Hpt : pulses t <= 10).
    { rewrite pulses_app, pulses_cons in Hk. pose proof (pulses_nonneg p). lia. }
    assert (Hnt : zlen t <= 15).
    { rewrite zlen_app, zlen_cons in Hn. pose proof (zlen_nonneg p). lia. }
    pose proof (enum_nonneg t ltac:(lia) Hpt) as H0.
    assert (E : (let '(idx, ls) := if negb (x =? 0)
                   then (Z.lor (shl (fst (enum t)) 1) (b2z (snd (enum t))), x <? 0)
                   else (fst (enum t), snd (enum t)) in
                 (idx + mpvq_offset (zlen t) (Z.min (pulses t) 10), ls)) = enum (x :: t)).
    { cbn [enum]. replace (pulses t =? 0) with false by lia.
      destruct (enum t) as [idx ls]. cbn [fst snd] in *.
      replace (Z.min (pulses t) 10) with (pulses t) by lia.
      destruct (x =? 0); cbn [negb]; [reflexivity|]. rewrite lor_shl1 by lia. reflexivity. }
    specialize (IH (x :: t) Hn Hk ltac:(rewrite pulses_cons; lia)).
    rewrite <- E in IH. rewrite zlen_cons, pulses_cons in IH.
    destruct (if negb (x =? 0)
              then (Z.lor (shl (fst (enum t)) 1) (b2z (snd (enum t))), x <? 0)
              else (fst (enum t), snd (enum t))) as [idx ls].
    cbn [fst snd] in IH. rewrite <- IH. f_equal; lia.
Qed.

Lemma enum_skip_ok k : forall x p i, x <> 0 -> 0 <= i -> i + Z.of_nat k <= 15 ->
  enum_skip (repeat 0 k ++ x :: p) i = Some (x, i + Z.of_nat k, p).
Proof.
  induction k as [|k IH]; intros x p i Hx Hi Hk; cbn [repeat app enum_skip].
  - replace (x =? 0) with false by lia. cbn [andb]. do 3 f_equal. lia.
  - replace ((0 =? 0) && (i <? 15)) with true by lia. rewrite IH by lia. do 3 f_equal. lia.
Qed.

(** Last significant coefficient. *)
Lemma split_signif c : 0 < pulses c ->
  exists p x k, c = p ++ x :: repeat 0 k /\ x <> 0.
Proof.
  induction c as [|y c IH] using rev_ind; intros H; [cbn in H; lia|].
  destruct (Z.eq_dec y 0) as [->|Hy].
  - rewrite pulses_app in H. destruct IH as (p & x & k & E & Hx); [cbn in H; lia|].
    exists p, x, (S k). split; [|exact Hx]. subst c. rewrite <- app_assoc. cbn [app].
    do 2 f_equal. symmetry. apply repeat_cons.
  - exists c, y, O. split; [reflexivity|exact Hy].
Qed.

Lemma rev_repeat {A} (x : A) n : rev (repeat x n) = repeat x n.
Proof.
  induction n as [|n IH]; [reflexivity|]. cbn [repeat rev]. rewrite IH. symmetry. apply repeat_cons.
Qed.

Lemma enum_mvpq_ok c : zlen c <= 16 -> 0 < pulses c <= 10 -> enum_mvpq c = Some (enum c).
Proof.
  intros Hn Hk. destruct (split_signif c ltac:(lia)) as (p & x & k & -> & Hx).
  unfold enum_mvpq. rewrite rev_app_distr. cbn [rev]. rewrite rev_repeat, <- app_assoc.
  cbn [app]. rewrite zlen_app, zlen_cons in Hn. pose proof (zlen_nonneg p).
  assert (Hz : zlen (repeat 0 k) = Z.of_nat k) by (unfold zlen; rewrite repeat_length; reflexivity).
  rewrite enum_skip_ok by lia. f_equal.
  rewrite <- enum_loop_ok.
  - cbn [enum]. rewrite pulses_zeros. cbn [Z.eqb fst snd].
    rewrite zlen_cons, pulses_cons, pulses_zeros, Hz. f_equal; lia.
  - rewrite zlen_app, zlen_cons. lia.
  - lia.
  - rewrite pulses_cons, pulses_zeros. lia.
Qed.

(** ** Bound of the index *)
Lemma enum_bound c : zlen c <= 16 -> 1 <= pulses c <= 10 ->
  0 <= fst (enum c) < cnt (length c) (pulses c).
Proof.
  induction c as [|x t IH]; intros Hn Hk; [cbn in Hk; lia|].
  rewrite zlen_cons in Hn. pose proof (pulses_cons x t) as Hp. pose proof (pulses_nonneg t) as Hp0.
  assert (Hm : (length t < 16)%nat) by (unfold zlen in *; lia).
  cbn [enum length cnt].
  assert (Hk' : 1 <= pulses (x :: t) <= 10) by exact Hk.
  pose proof (cnt_offset_nonneg (length t) (pulses (x :: t)) ltac:(lia) Hk') as (Hc & Ho).
  specialize (Ho Hm).
  destruct (pulses t =? 0) eqn:E; [cbn [fst]; lia|].
  specialize (IH ltac:(lia) ltac:(lia)). destruct (enum t) as [idx ls]. cbn [fst] in IH.
  pose proof (cnt_offset_nonneg (length t) (pulses t) ltac:(lia) ltac:(lia)) as (_ & Ho').
  specialize (Ho' Hm).
  change (Z.of_nat (length t)) with (zlen t) in *.
  destruct (x =? 0) eqn:Ex; cbn [fst].
  - replace (pulses (x :: t)) with (pulses t) in * by lia. lia.
  - destruct (offsets_rec _ Hm) as (_ & _ & H2). specialize (H2 (pulses t) ltac:(lia)).
    pose proof (offset_mono _ (pulses t + 1) (pulses (x :: t)) Hm ltac:(lia) ltac:(lia)) as Hmo.
    change (Z.of_nat (length t)) with (zlen t) in *.
    destruct ls; cbn [b2z]; lia.
Qed.

(** ** De-enumeration *)
Lemma deenum_find_ok m idx j : (m < 16)%nat -> 0 <= idx ->
  forall d : nat, 0 <= j -> j + Z.of_nat d <= 10 ->
  mpvq_offset (Z.of_nat m) j <= idx -> (forall j', j < j' <= j + Z.of_nat d -> idx < mpvq_offset (Z.of_nat m) j') ->
  forall fuel, (d < fuel)%nat ->
  deenum_find fuel (Z.of_nat m) idx (j + Z.of_nat d) = Some j.
Proof.
  intros Hm Hi d Hj Hd H1 H2. induction d as [|d IH]; intros fuel Hf.
  - destruct fuel as [|fuel]; [lia|]. cbn [deenum_find]. rewrite Z.add_0_r.
    replace (j <? 0) with false by lia. replace (idx <? _) with false by lia. reflexivity.
  - destruct fuel as [|fuel]; [lia|]. cbn [deenum_find].
    replace (j + Z.of_nat (S d) <? 0) with false by lia.
    pose proof (H2 (j + Z.of_nat (S d)) ltac:(lia)) as H3.
    replace (idx <? _) with true by lia.
    replace (j + Z.of_nat (S d) - 1) with (j + Z.of_nat d) by lia.
    apply IH; [lia| |lia]. intros j' Hj'. apply H2. lia.
Qed.

(** Interval of the index that gives [j] pulses after the coefficient. *)
Lemma deenum_find_in m idx k j : (m < 16)%nat -> 0 <= idx -> 0 <= j <= k -> k <= 10 ->
  mpvq_offset (Z.of_nat m) j <= idx -> (j < k -> idx < mpvq_offset (Z.of_nat m) (j + 1)) ->
  deenum_find (S (Z.to_nat k)) (Z.of_nat m) idx k = Some j.
Proof.
  intros Hm Hi Hj Hk H1 H2.
  replace k with (j + Z.of_nat (Z.to_nat (k - j))) at 2 by lia.
  apply deenum_find_ok; auto; try lia.
  intros j' Hj'. specialize (H2 ltac:(lia)).
  pose proof (offset_mono m (j + 1) j' Hm ltac:(lia) ltac:(lia)). lia.
Qed.

Lemma land1_b2z i b : negb (Z.land (2 * i + b2z b) 1 =? 0) = b.
Proof.
  change 1 with (2 ^ 1 - 1). rewrite land_mask by lia. change (2 ^ 1) with 2.
  rewrite Z.add_comm, Z.mul_comm, Z.mod_add by lia. destruct b; reflexivity.
Qed.
Lemma shr1_b2z i b : shr (2 * i + b2z b) 1 = i.
Proof.
  unfold shr. change (2 ^ 1) with 2. rewrite Z.add_comm, Z.mul_comm, Z.div_add by lia.
  destruct b; reflexivity.
Qed.

Lemma deenum_enum c : zlen c <= 16 -> 1 <= pulses c <= 10 ->
  deenum_mvpq (length c) (fst (enum c)) (snd (enum c)) (pulses c) = Some c.
Proof.
  induction c as [|x t IH]; intros Hn Hk; [cbn in Hk; lia|].
  rewrite zlen_cons in Hn. pose proof (pulses_cons x t) as Hp. pose proof (pulses_nonneg t) as Hp0.
  assert (Hm : (length t < 16)%nat) by (unfold zlen in *; lia).
  cbn [length deenum_mvpq enum].
  destruct (pulses t =? 0) eqn:E.
  - cbn [fst snd Z.eqb]. f_equal. assert (Et : t = repeat 0 (length t)) by (apply pulses_0; lia).
    rewrite <- Et. f_equal.
    destruct (x <? 0) eqn:Ex; lia.
  - specialize (IH ltac:(lia) ltac:(lia)).
    pose proof (enum_bound t ltac:(lia) ltac:(lia)) as Hb.
    destruct (enum t) as [idx ls]. cbn [fst snd] in IH, Hb.
    pose proof (cnt_offset_nonneg (length t) (pulses t) ltac:(lia) ltac:(lia)) as (_ & Ho').
    specialize (Ho' Hm). destruct (offsets_rec _ Hm) as (_ & _ & H2).
    change (zlen t) with (Z.of_nat (length t)).
    set (off := mpvq_offset (Z.of_nat (length t)) (pulses t)) in *.
    destruct (x =? 0) eqn:Ex; cbn [fst snd].
    + assert (x = 0) by lia. subst x. replace (pulses (0 :: t)) with (pulses t) in * by lia.
      replace (idx + off =? 0) with false by lia.
      rewrite (deenum_find_in _ _ _ (pulses t)); try (assumption || lia).
      replace (pulses t - pulses t) with 0 by lia. cbn [Z.ltb Z.compare].
      fold off. replace (idx + off - off) with idx by lia. rewrite IH. cbn [option_map].
      destruct ls; reflexivity.
    + set (i2 := 2 * idx + b2z ls).
      assert (Hi2 : 0 <= i2 < 2 * cnt (length t) (pulses t)) by (unfold i2; destruct ls; cbn [b2z]; lia).
      replace (i2 + off =? 0) with false by lia.
      specialize (H2 (pulses t) ltac:(lia)). fold off in H2.
      rewrite (deenum_find_in _ _ _ (pulses t)); try (assumption || lia).
      replace (0 <? pulses (x :: t) - pulses t) with true by lia.
      fold off. replace (i2 + off - off) with i2 by lia. unfold i2.
      rewrite land1_b2z, shr1_b2z, IH. cbn [option_map]. do 2 f_equal.
      destruct (x <? 0) eqn:Es; lia.
Qed.

(** Position of an index in the table. *)
Lemma find_interval m idx k : (m < 16)%nat -> 1 <= k <= 10 -> 0 <= idx ->
  exists j, 0 <= j <= k /\ mpvq_offset (Z.of_nat m) j <= idx /\
    (j < k -> idx < mpvq_offset (Z.of_nat m) (j + 1)).
Proof.
  intros Hm Hk Hi. destruct (offsets_rec m Hm) as (H0 & _ & _).
  assert (H : forall d : nat, Z.of_nat d <= 10 ->
    exists j, 0 <= j <= Z.of_nat d /\ mpvq_offset (Z.of_nat m) j <= idx /\
      (j < Z.of_nat d -> idx < mpvq_offset (Z.of_nat m) (j + 1))).
  { induction d as [|d IH]; intros Hd.
    - exists 0. rewrite H0. lia.
    - destruct (Z_lt_le_dec idx (mpvq_offset (Z.of_nat m) (Z.of_nat (S d)))) as [Hlt|Hge].
      + destruct (IH ltac:(lia)) as (j & Hj & Hlo & Hhi). exists j. split; [lia|]. split; [exact Hlo|].
        intros _. destruct (Z.eq_dec j (Z.of_nat d)) as [->|Hne].
        * replace (Z.of_nat d + 1) with (Z.of_nat (S d)) by lia. exact Hlt.
        * apply Hhi. lia.
      + exists (Z.of_nat (S d)). split; [lia|]. split; [exact Hge|]. lia. }
  specialize (H (Z.to_nat k) ltac:(lia)). rewrite Z2Nat.id in H by lia. exact H.
Qed.

Lemma land1_split i : i = 2 * shr i 1 + b2z (negb (Z.land i 1 =? 0)).
Proof.
  change 1 with (2 ^ 1 - 1) at 2. rewrite land_mask by lia. unfold shr. change (2 ^ 1) with 2.
  pose proof (Z.div_mod i 2 ltac:(lia)). pose proof (Z.mod_pos_bound i 2 ltac:(lia)).
  destruct (i mod 2 =? 0) eqn:E; cbn [negb b2z]; lia.
Qed.

Lemma enum_deenum n : forall idx ls k, (n <= 16)%nat -> 1 <= k <= 10 -> 0 <= idx < cnt n k ->
  exists c, deenum_mvpq n idx ls k = Some c /\ length c = n /\ pulses c = k /\ enum c = (idx, ls).
Proof.
  induction n as [|n IH]; intros idx ls k Hn Hk Hi; [cbn in Hi; lia|].
  cbn [deenum_mvpq]. destruct (idx =? 0) eqn:E0.
  - assert (idx = 0) by lia. subst idx. eexists. split; [reflexivity|].
    split; [cbn [length]; rewrite repeat_length; reflexivity|].
    split; [rewrite pulses_cons, pulses_zeros; destruct ls; lia|].
    cbn [enum]. rewrite pulses_zeros. cbn [Z.eqb]. f_equal. destruct ls; lia.
  - destruct (find_interval n idx k ltac:(lia) Hk ltac:(lia)) as (j & Hj & Hlo & Hhi).
    assert (Hm : (n < 16)%nat) by lia.
    rewrite (deenum_find_in n idx k j); try (assumption || lia).
    destruct (offsets_rec n Hm) as (HO0 & HO1 & HO2).
    assert (Hj1 : 1 <= j).
    { destruct (Z.eq_dec j 0) as [->|]; [|lia]. specialize (Hhi ltac:(lia)).
      change (0 + 1) with 1 in Hhi. lia. }
    set (off := mpvq_offset (Z.of_nat n) j) in *.
    destruct (0 <? k - j) eqn:Ec.
    + specialize (Hhi ltac:(lia)). specialize (HO2 j ltac:(lia)). fold off in HO2.
      set (i2 := idx - off). pose proof (land1_split i2) as Hs.
      set (i1 := shr i2 1) in *. set (b := negb (Z.land i2 1 =? 0)) in *.
      assert (Hi1 : 0 <= i1 < cnt n j) by (destruct b; cbn [b2z] in Hs; lia).
      destruct (IH i1 b j ltac:(lia) ltac:(lia) Hi1) as (c & Ed & Hl & Hp & Ee).
      rewrite Ed. cbn [option_map]. eexists. split; [reflexivity|].
      split; [cbn [length]; lia|]. split; [rewrite pulses_cons; destruct ls; lia|].
      cbn [enum]. rewrite Hp, Ee. replace (j =? 0) with false by lia.
      replace ((if ls then - (k - j) else k - j) =? 0) with false by (destruct ls; lia).
      unfold zlen. rewrite Hl. fold off. f_equal; [lia|]. destruct ls; lia.
    + assert (j = k) by lia. subst j.
      cbn [cnt] in Hi. fold off in Hi.
      destruct (IH (idx - off) ls k ltac:(lia) ltac:(lia) ltac:(lia)) as (c & Ed & Hl & Hp & Ee).
      rewrite Ed. cbn [option_map]. eexists. split; [reflexivity|].
      split; [cbn [length]; lia|]. split; [rewrite pulses_cons; destruct ls; lia|].
      cbn [enum]. rewrite Hp, Ee. replace (k =? 0) with false by lia.
      replace ((if ls then - (k - k) else k - k) =? 0) with true by (destruct ls; lia).
      unfold zlen. rewrite Hl. fold off. f_equal. lia.
Qed.

(** ** The four shapes *)
Lemma cnt_sizes :
  cnt 10 10 = 2390004 /\ cnt 6 1 = 6 /\ cnt 16 8 = 15158272 /\ cnt 16 6 = 774912.
Proof. vm_compute. auto. Qed.

Lemma enum_pair c : enum c = (fst (enum c), snd (enum c)).
Proof. destruct (enum c); reflexivity. Qed.

Lemma enumerate_ok shape c : 0 <= shape < 4 -> config_ok shape c ->
  exists ia la ob, enumerate shape c = Some ((ia, la), ob) /\ 0 <= ia < sns_size_a shape /\
    (if shape =? 0 then exists ib lb, ob = Some (ib, lb) /\ 0 <= ib < 6 /\
       deenumerate shape ia la ib lb = Some c
     else ob = None /\ forall ib lb, deenumerate shape ia la ib lb = Some c).
Proof.
  intros Hs (Hl & H). destruct cnt_sizes as (C1 & C2 & C3 & C4).
  assert (L1 : length (firstn 10 c) = 10%nat) by (rewrite firstn_length; lia).
  assert (L2 : length (skipn 10 c) = 6%nat) by (rewrite skipn_length; lia).
  assert (L3 : firstn 16 c = c) by (apply firstn_all2; lia).
  assert (Hc : shape = 0 \/ shape = 1 \/ shape = 2 \/ shape = 3) by lia.
  unfold enumerate, deenumerate, sns_size_a.
  destruct Hc as [->|[->|[->| ->]]]; cbn [Z.eqb Z.ltb Z.compare Pos.compare Pos.compare_cont Pos.eqb] in *.
  - destruct H as (Ha & Hb).
    assert (Za : zlen (firstn 10 c) <= 16) by (unfold zlen; lia).
    assert (Zb : zlen (skipn 10 c) <= 16) by (unfold zlen; lia).
    rewrite (enum_mvpq_ok _ Za), (enum_mvpq_ok _ Zb) by lia.
    pose proof (enum_bound _ Za ltac:(lia)) as Ba. pose proof (enum_bound _ Zb ltac:(lia)) as Bb.
    rewrite L1, Ha, C1 in Ba. rewrite L2, Hb, C2 in Bb.
    pose proof (deenum_enum _ Za ltac:(lia)) as Da. pose proof (deenum_enum _ Zb ltac:(lia)) as Db.
    rewrite L1, Ha in Da. rewrite L2, Hb in Db.
    rewrite (enum_pair (firstn 10 c)), (enum_pair (skipn 10 c)).
    eexists _, _, _. split; [reflexivity|]. split; [exact Ba|].
    eexists _, _. split; [reflexivity|]. split; [exact Bb|].
    change (znth [10; 10; 8; 6] 0 0) with 10. rewrite Da, Db, firstn_skipn. reflexivity.
  - destruct H as (Ha & Hb).
    assert (Za : zlen (firstn 10 c) <= 16) by (unfold zlen; lia).
    rewrite (enum_mvpq_ok _ Za) by lia.
    pose proof (enum_bound _ Za ltac:(lia)) as Ba. rewrite L1, Ha, C1 in Ba.
    pose proof (deenum_enum _ Za ltac:(lia)) as Da. rewrite L1, Ha in Da.
    rewrite (enum_pair (firstn 10 c)).
    eexists _, _, _. split; [reflexivity|]. split; [exact Ba|]. split; [reflexivity|].
    intros ib lb. change (znth [10; 10; 8; 6] 1 0) with 10. rewrite Da.
    rewrite <- (firstn_skipn 10 c) at 2. do 2 f_equal.
    rewrite (pulses_0 _ Hb), L2. reflexivity.
  - rewrite L3. assert (Za : zlen c <= 16) by (unfold zlen; lia).
    rewrite (enum_mvpq_ok _ Za) by lia.
    pose proof (enum_bound _ Za ltac:(lia)) as Ba. rewrite Hl, H, C3 in Ba.
    pose proof (deenum_enum _ Za ltac:(lia)) as Da. rewrite Hl, H in Da.
    rewrite (enum_pair c).
    eexists _, _, _. split; [reflexivity|]. split; [exact Ba|]. split; [reflexivity|].
    intros ib lb. change (znth [10; 10; 8; 6] 2 0) with 8. rewrite Da. reflexivity.
  - rewrite L3. assert (Za : zlen c <= 16) by (unfold zlen; lia).
    rewrite (enum_mvpq_ok _ Za) by lia.
    pose proof (enum_bound _ Za ltac:(lia)) as Ba. rewrite Hl, H, C4 in Ba.
    pose proof (deenum_enum _ Za ltac:(lia)) as Da. rewrite Hl, H in Da.
    rewrite (enum_pair c).
    eexists _, _, _. split; [reflexivity|]. split; [exact Ba|]. split; [reflexivity|].
    intros ib lb. change (znth [10; 10; 8; 6] 3 0) with 6. rewrite Da. reflexivity.
Qed.

Lemma deenumerate_ok shape ia la ib lb :
  0 <= shape < 4 -> 0 <= ia < sns_size_a shape -> (shape = 0 -> 0 <= ib < 6) ->
  exists c, deenumerate shape ia la ib lb = Some c /\ config_ok shape c /\
    enumerate shape c = Some ((ia, la), if shape =? 0 then Some (ib, lb) else None).
Proof.
  intros Hs Ha Hb. destruct cnt_sizes as (C1 & C2 & C3 & C4).
  assert (Hc : shape = 0 \/ shape = 1 \/ shape = 2 \/ shape = 3) by lia.
  unfold enumerate, deenumerate, sns_size_a, config_ok in *.
  destruct Hc as [->|[->|[->| ->]]]; cbn [Z.eqb Z.ltb Z.compare Pos.compare Pos.compare_cont Pos.eqb] in *.
  - change (znth [10; 10; 8; 6] 0 0) with 10. specialize (Hb eq_refl).
    destruct (enum_deenum 10 ia la 10 ltac:(lia) ltac:(lia) ltac:(lia)) as (a & Da & La & Pa & Ea).
    destruct (enum_deenum 6 ib lb 1 ltac:(lia) ltac:(lia) ltac:(lia)) as (b & Db & Lb & Pb & Eb).
    rewrite Da, Db. exists (a ++ b). split; [reflexivity|].
    assert (F : firstn 10 (a ++ b) = a).
    { rewrite <- La. rewrite firstn_app, Nat.sub_diag, firstn_all. apply app_nil_r. }
    assert (K : skipn 10 (a ++ b) = b).
    { rewrite <- La. rewrite skipn_app, Nat.sub_diag, skipn_all. reflexivity. }
    rewrite F, K. split; [rewrite app_length; lia|].
    rewrite !enum_mvpq_ok by (unfold zlen; lia). rewrite Ea, Eb. reflexivity.
  - change (znth [10; 10; 8; 6] 1 0) with 10.
    destruct (enum_deenum 10 ia la 10 ltac:(lia) ltac:(lia) ltac:(lia)) as (a & Da & La & Pa & Ea).
    rewrite Da. exists (a ++ repeat 0 6). split; [reflexivity|].
    assert (F : firstn 10 (a ++ repeat 0 6) = a).
    { rewrite <- La. rewrite firstn_app, Nat.sub_diag, firstn_all. apply app_nil_r. }
    assert (K : skipn 10 (a ++ repeat 0 6) = repeat 0 6).
    { rewrite <- La. rewrite skipn_app, Nat.sub_diag, skipn_all. reflexivity. }
    rewrite F, K. split; [rewrite app_length, repeat_length, pulses_zeros; lia|].
    rewrite !enum_mvpq_ok by (unfold zlen; lia). rewrite Ea. reflexivity.
  - change (znth [10; 10; 8; 6] 2 0) with 8.
    destruct (enum_deenum 16 ia la 8 ltac:(lia) ltac:(lia) ltac:(lia)) as (a & Da & La & Pa & Ea).
    rewrite Da. exists a. split; [reflexivity|]. rewrite firstn_all2 by lia.
    split; [lia|]. rewrite !enum_mvpq_ok by (unfold zlen; lia). rewrite Ea. reflexivity.
  - change (znth [10; 10; 8; 6] 3 0) with 6.
    destruct (enum_deenum 16 ia la 6 ltac:(lia) ltac:(lia) ltac:(lia)) as (a & Da & La & Pa & Ea).
    rewrite Da. exists a. split; [reflexivity|]. rewrite firstn_all2 by lia.
    split; [lia|]. rewrite !enum_mvpq_ok by (unfold zlen; lia). rewrite Ea. reflexivity.
Qed.
