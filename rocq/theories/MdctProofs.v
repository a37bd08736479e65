(** * Transform: accesses, and value of each buffer *)
From Coq Require Import ZArith List Bool Lia ZifyBool.
From Verif Require Import Base BaseProofs ConfigModel MdctModel.
Import ListNotations.
Local Open Scope Z_scope.

(** ** Loops *)
Lemma loop_inv {S} (P : Z -> S -> Prop) f : forall k i s, P i s ->
  (forall j s, i <= j < i + Z.of_nat k -> P j s -> exists s', f j s = Some s' /\ P (j + 1) s') ->
  exists s', loop k f i s = Some s' /\ P (i + Z.of_nat k) s'.
Proof.
  induction k as [|k IH]; intros i s Hs Hf; cbn [loop].
  - exists s. rewrite Z.add_0_r. auto.
  - destruct (Hf i s ltac:(lia) Hs) as (s1 & E & H1). rewrite E. cbn [bind].
    destruct (IH (i + 1) s1 H1) as (s2 & E2 & H2). { intros j t Hj. apply Hf. lia. }
    exists s2. split; [exact E2|]. replace (i + Z.of_nat (Datatypes.S k)) with (i + 1 + Z.of_nat k) by lia. exact H2.
Qed.
Lemma for_inv {S} (P : Z -> S -> Prop) f n s : 0 <= n -> P 0 s ->
  (forall j s, 0 <= j < n -> P j s -> exists s', f j s = Some s' /\ P (j + 1) s') ->
  exists s', for_ n f s = Some s' /\ P n s'.
Proof.
  intros Hn H0 Hf. unfold for_. destruct (loop_inv P f (Z.to_nat n) 0 s H0) as (s' & E & H). { intros j t Hj. apply Hf. lia. }
  exists s'. split; [exact E|]. replace n with (0 + Z.of_nat (Z.to_nat n)) by lia. exact H.
Qed.
(** The condition holds for the [k] first states. *)
Lemma while_inv {S} (P : Z -> S -> Prop) (c : S -> bool) f k : 0 <= k ->
  (forall j s, 0 <= j <= k -> P j s -> c s = (j <? k)) ->
  (forall j s, 0 <= j < k -> P j s -> exists s', f s = Some s' /\ P (j + 1) s') ->
  forall fuel s, P 0 s -> k <= Z.of_nat fuel -> exists s', while fuel c f s = Some s' /\ P k s'.
Proof.
  intros Hk Hc Hf fuel s H0 Hfu.
  assert (G : forall fu j s, 0 <= j <= k -> P j s -> k - j <= Z.of_nat fu -> exists s', while fu c f s = Some s' /\ P k s').
  { induction fu as [|fu IH]; intros j t Hj Ht Hl; cbn [while]; rewrite (Hc j t Hj Ht).
    - assert (j = k) as -> by lia. rewrite Z.ltb_irrefl. exists t. auto.
    - destruct (j <? k) eqn:E.
      + destruct (Hf j t ltac:(lia) Ht) as (t' & E' & H'). rewrite E'. cbn [bind]. apply (IH (j + 1)); [lia|exact H'|lia].
      + assert (j = k) as -> by lia. exists t. auto. }
  apply (G fuel 0 s); [lia|exact H0|lia].
Qed.

Section Generic.
Context {F : Type} (f0 : F) (add sub mul : F -> F -> F) (opp : F -> F).
Notation at_ := (at_ f0).
Notation rd := (rd f0).
Notation rdc := (rdc f0).
Notation cpx := (@cpx F).

(** ** Memory *)
Lemma upd_len {A} (l : list A) i v : zlen (upd l i v) = zlen l.
Proof. unfold upd, zlen. destruct (i <? 0); [reflexivity|]. f_equal. revert l. induction (Z.to_nat i) as [|n IH]; intros [|h t]; cbn; auto. Qed.
Lemma upd_nat_nth {A} (d : A) : forall l i j v, (i < length l)%nat -> nth j (upd_nat l i v) d = if (j =? i)%nat then v else nth j l d.
Proof.
  induction l as [|h t IH]; intros [|i] [|j] v Hi; cbn in *; try lia; try reflexivity. apply IH. lia.
Qed.
Lemma rd_ok b i : 0 <= i < zlen b -> rd b i = Some (at_ b i).
Proof. intros H. unfold MdctModel.rd, inb. replace (_ && _) with true by lia. reflexivity. Qed.
Lemma wr_ok b i v : 0 <= i < zlen b -> exists b', wr b i v = Some b' /\ zlen b' = zlen b /\
  forall j, 0 <= j -> at_ b' j = if j =? i then v else at_ b j.
Proof.
  intros H. unfold wr, inb. replace (_ && _) with true by lia. exists (upd b i v). split; [reflexivity|]. split; [apply upd_len|].
  intros j Hj. unfold MdctModel.at_, upd. replace (i <? 0) with false by lia. rewrite upd_nat_nth by (unfold zlen in H; lia).
  destruct (j =? i) eqn:E; [replace (_ =? _)%nat with true by lia|replace (_ =? _)%nat with false by lia]; reflexivity.
Qed.

Definition cat (b : list F) (i : Z) : cpx := (at_ b (2 * i), at_ b (2 * i + 1)).
Lemma rdc_ok b i : 0 <= i -> 2 * i + 1 < zlen b -> rdc b i = Some (cat b i).
Proof. intros H1 H2. unfold MdctModel.rdc. rewrite !rd_ok by lia. reflexivity. Qed.
Lemma wrc_ok b i v : 0 <= i -> 2 * i + 1 < zlen b -> exists b', wrc b i v = Some b' /\ zlen b' = zlen b /\
  (forall j, 0 <= j -> cat b' j = if j =? i then v else cat b j) /\
  (forall j, 0 <= j -> j <> 2 * i -> j <> 2 * i + 1 -> at_ b' j = at_ b j).
Proof.
  intros H1 H2. unfold wrc. destruct (wr_ok b (2 * i) (fst v) ltac:(lia)) as (b1 & E1 & L1 & V1). rewrite E1. cbn [bind].
  destruct (wr_ok b1 (2 * i + 1) (snd v) ltac:(lia)) as (b2 & E2 & L2 & V2). exists b2. split; [exact E2|]. split; [lia|]. split.
  - intros j Hj. unfold cat. rewrite !V2, !V1 by lia. destruct (j =? i) eqn:E.
    + replace (2 * j =? 2 * i + 1) with false by lia. replace (2 * j =? 2 * i) with true by lia. replace (2 * j + 1 =? 2 * i + 1) with true by lia. destruct v; reflexivity.
    + replace (2 * j =? 2 * i + 1) with false by lia. replace (2 * j =? 2 * i) with false by lia. replace (2 * j + 1 =? 2 * i + 1) with false by lia.
      replace (2 * j + 1 =? 2 * i) with false by lia. reflexivity.
  - intros j Hj Ha Hb. rewrite V2, V1 by lia. replace (j =? 2 * i + 1) with false by lia. replace (j =? 2 * i) with false by lia. reflexivity.
Qed.
Lemma rdt_ok {A} (t : list A) i d : 0 <= i < zlen t -> rdt t i = Some (znth t i d).
Proof.
  intros H. unfold rdt, znth. replace (i <? 0) with false by lia. apply nth_error_nth'. unfold zlen in H. lia.
Qed.

(** ** FFT *)
Lemma fft_5_ok K x y n : 0 <= n -> 10 * n <= zlen x -> 10 * n <= zlen y ->
  exists y', fft_5 f0 add sub mul K x y n = Some y' /\ zlen y' = zlen y /\
    forall i r, 0 <= i < n -> 0 <= r < 5 ->
      cat y' (5 * i + r) = fft5_out add sub mul K (cat x i) (cat x (i + n)) (cat x (i + 2 * n)) (cat x (i + 3 * n)) (cat x (i + 4 * n)) r.
Proof.
  intros Hn Hx Hy. unfold fft_5.
  match goal with |- context [for_ n ?f y] =>
    destruct (for_inv (fun k y' => zlen y' = zlen y /\ forall i r, 0 <= i < k -> 0 <= r < 5 ->
      cat y' (5 * i + r) = fft5_out add sub mul K (cat x i) (cat x (i + n)) (cat x (i + 2 * n)) (cat x (i + 3 * n)) (cat x (i + 4 * n)) r) f n y Hn) as (y' & E & L & V)
  end.
  - split; [reflexivity|]. intros; lia.
  - intros k b Hk [L V]. rewrite !rdc_ok by lia. replace (1 * n) with n by lia. cbn [bind].
    set (out := fft5_out _ _ _ _ _ _ _ _ _).
    destruct (wrc_ok b (5 * k) (out 0) ltac:(lia) ltac:(lia)) as (b1 & E1 & L1 & V1 & _). rewrite E1. cbn [bind].
    destruct (wrc_ok b1 (5 * k + 1) (out 1) ltac:(lia) ltac:(lia)) as (b2 & E2 & L2 & V2 & _). rewrite E2. cbn [bind].
    destruct (wrc_ok b2 (5 * k + 2) (out 2) ltac:(lia) ltac:(lia)) as (b3 & E3 & L3 & V3 & _). rewrite E3. cbn [bind].
    destruct (wrc_ok b3 (5 * k + 3) (out 3) ltac:(lia) ltac:(lia)) as (b4 & E4 & L4 & V4 & _). rewrite E4. cbn [bind].
    destruct (wrc_ok b4 (5 * k + 4) (out 4) ltac:(lia) ltac:(lia)) as (b5 & E5 & L5 & V5 & _). exists b5. split; [exact E5|]. split; [lia|].
    intros i r Hi Hr. rewrite V5, V4, V3, V2, V1 by lia.
    destruct (Z.eq_dec i k) as [->|Hne].
    + fold out. assert (r = 0 \/ r = 1 \/ r = 2 \/ r = 3 \/ r = 4) as C by lia.
      destruct C as [->|[->|[->|[->| ->]]]];
        repeat match goal with |- context [if ?c then _ else _] => first [replace c with true by lia|replace c with false by lia] end; reflexivity.
    + repeat match goal with |- context [if ?c then _ else _] => replace c with false by lia end. apply V; lia.
  - exists y'. auto.
Qed.

Lemma pos_unique p L i r j i' r' j' : 0 < L -> 0 <= j < L -> 0 <= j' < L -> 0 <= r < p -> 0 <= r' < p ->
  i * (p * L) + r * L + j = i' * (p * L) + r' * L + j' -> i = i' /\ r = r' /\ j = j'.
Proof.
  intros HL Hj Hj' Hr Hr' E. assert (A : (i * p + r) * L + j = (i' * p + r') * L + j') by nia.
  assert (B : i * p + r = i' * p + r') by nia. assert (C : i = i') by nia. subst. split; [reflexivity|]. split; nia.
Qed.

(** Two nested loops: the outputs of index [(i, r, j)]. *)
Lemma nested_ok (p n L : Z) (val : Z -> Z -> Z -> cpx) body (y : list F) : 0 <= n -> 0 < L -> 0 < p -> 2 * (n * (p * L)) <= zlen y ->
  (forall i j b, 0 <= i < n -> 0 <= j < L -> zlen b = zlen y -> exists b', body i j b = Some b' /\ zlen b' = zlen b /\
     (forall r, 0 <= r < p -> cat b' (i * (p * L) + r * L + j) = val i r j) /\
     (forall q, 0 <= q -> (forall r, 0 <= r < p -> q <> i * (p * L) + r * L + j) -> cat b' q = cat b q)) ->
  exists y', for_ n (fun i y => for_ L (fun j y => body i j y) y) y = Some y' /\ zlen y' = zlen y /\
    forall i r j, 0 <= i < n -> 0 <= r < p -> 0 <= j < L -> cat y' (i * (p * L) + r * L + j) = val i r j.
Proof.
  intros Hn HL Hp Hy Hb.
  destruct (for_inv (fun k y' => zlen y' = zlen y /\ forall i r j, 0 <= i < k -> 0 <= r < p -> 0 <= j < L -> cat y' (i * (p * L) + r * L + j) = val i r j)
             (fun i y => for_ L (fun j y => body i j y) y) n y Hn) as (y' & E & L' & V).
  - split; [reflexivity|]. intros; lia.
  - intros k b Hk [Lb Vb].
    destruct (for_inv (fun m y' => zlen y' = zlen y /\ (forall i r j, 0 <= i < k -> 0 <= r < p -> 0 <= j < L -> cat y' (i * (p * L) + r * L + j) = val i r j) /\
               (forall r j, 0 <= r < p -> 0 <= j < m -> cat y' (k * (p * L) + r * L + j) = val k r j)) (fun j y => body k j y) L b ltac:(lia)) as (b' & E & L' & V1 & V2).
    + split; [exact Lb|]. split; [exact Vb|]. intros; lia.
    + intros m c Hm (Lc & Vc1 & Vc2). destruct (Hb k m c Hk Hm Lc) as (c' & E & Lc' & W1 & W2). exists c'. split; [exact E|]. split; [lia|]. split.
      * intros i r j Hi Hr Hj. rewrite W2; [apply Vc1; assumption|nia|]. intros r' Hr' Eq. apply pos_unique in Eq; lia.
      * intros r j Hr Hj. destruct (Z.eq_dec j m) as [->|Hne]; [apply W1; exact Hr|].
        rewrite W2; [apply Vc2; lia|nia|]. intros r' Hr' Eq. apply pos_unique in Eq; lia.
    + exists b'. split; [exact E|]. split; [exact L'|]. intros i r j Hi Hr Hj. destruct (Z.eq_dec i k) as [->|Hne]; [apply V2; assumption|apply V1; lia].
  - exists y'. auto.
Qed.

Definition d1 : cpx := (f0, f0).
Definition d2 : cpx * cpx := (d1, d1).

Lemma fft_bf3_ok tw x y n L : 0 <= n -> 0 < L -> t_n3 tw = L -> zlen (t_t3 tw) = 3 * L -> 2 * (n * (3 * L)) <= zlen x -> 2 * (n * (3 * L)) <= zlen y ->
  exists y', fft_bf3 f0 add sub mul tw x y n = Some y' /\ zlen y' = zlen y /\
    forall i r j, 0 <= i < n -> 0 <= r < 3 -> 0 <= j < L ->
      cat y' (i * (3 * L) + r * L + j) =
      bf3_out add sub mul (cat x (i * L + j)) (cat x ((i + n) * L + j)) (cat x ((i + 2 * n) * L + j)) (znth (t_t3 tw) (r * L + j) d2).
Proof.
  intros Hn HL En Et Hx Hy. unfold fft_bf3. rewrite En.
  apply (nested_ok 3 n L (fun i r j => bf3_out add sub mul (cat x (i * L + j)) (cat x ((i + n) * L + j)) (cat x ((i + 2 * n) * L + j)) (znth (t_t3 tw) (r * L + j) d2))
    (fun i j y => _) y Hn HL ltac:(lia) Hy).
  intros i j b Hi Hj Lb.
  rewrite !rdc_ok by nia. rewrite !(rdt_ok _ _ d2) by lia. cbn [bind].
  replace (n * L + (i * L + j)) with ((i + n) * L + j) by ring. replace (2 * (n * L) + (i * L + j)) with ((i + 2 * n) * L + j) by ring.
  set (o := bf3_out _ _ _ _ _ _).
  destruct (wrc_ok b (i * (3 * L) + j) (o (znth (t_t3 tw) j d2)) ltac:(nia) ltac:(nia)) as (b1 & E1 & L1 & V1 & _). rewrite E1. cbn [bind].
  destruct (wrc_ok b1 (i * (3 * L) + L + j) (o (znth (t_t3 tw) (L + j) d2)) ltac:(nia) ltac:(nia)) as (b2 & E2 & L2 & V2 & _). rewrite E2. cbn [bind].
  destruct (wrc_ok b2 (i * (3 * L) + 2 * L + j) (o (znth (t_t3 tw) (2 * L + j) d2)) ltac:(nia) ltac:(nia)) as (b3 & E3 & L3 & V3 & _). exists b3.
  split; [exact E3|]. split; [lia|]. split.
  - intros r Hr. rewrite V3, V2, V1 by nia. assert (C : r = 0 \/ r = 1 \/ r = 2) by lia.
    destruct C as [->|[->| ->]]; repeat match goal with |- context [if ?c then _ else _] => first [replace c with true by lia|replace c with false by lia] end.
    + replace (0 * L + j) with j by lia. reflexivity.
    + replace (1 * L + j) with (L + j) by lia. reflexivity.
    + reflexivity.
  - intros q Hq Hne. rewrite V3, V2, V1 by lia. pose proof (Hne 0). pose proof (Hne 1). pose proof (Hne 2).
    repeat match goal with |- context [if ?c then _ else _] => replace c with false by lia end. reflexivity.
Qed.

Lemma fft_bf2_ok tw x y n L : 0 <= n -> 0 < L -> t_n2 tw = L -> zlen (t_t2 tw) = L -> 2 * (n * (2 * L)) <= zlen x -> 2 * (n * (2 * L)) <= zlen y ->
  exists y', fft_bf2 f0 add sub mul tw x y n = Some y' /\ zlen y' = zlen y /\
    forall i r j, 0 <= i < n -> 0 <= r < 2 -> 0 <= j < L ->
      cat y' (i * (2 * L) + r * L + j) =
      bf2_out add sub mul (cat x (i * L + j)) (cat x ((i + n) * L + j)) (znth (t_t2 tw) j d1) r.
Proof.
  intros Hn HL En Et Hx Hy. unfold fft_bf2. rewrite En.
  apply (nested_ok 2 n L (fun i r j => bf2_out add sub mul (cat x (i * L + j)) (cat x ((i + n) * L + j)) (znth (t_t2 tw) j d1) r)
    (fun i j y => _) y Hn HL ltac:(lia) Hy).
  intros i j b Hi Hj Lb.
  rewrite !rdc_ok by nia. rewrite !(rdt_ok _ _ d1) by lia. cbn [bind].
  replace (n * L + (i * L + j)) with ((i + n) * L + j) by ring.
  set (o := bf2_out _ _ _ _ _ _).
  destruct (wrc_ok b (i * (2 * L) + j) (o 0) ltac:(nia) ltac:(nia)) as (b1 & E1 & L1 & V1 & _). rewrite E1. cbn [bind].
  destruct (wrc_ok b1 (i * (2 * L) + L + j) (o 1) ltac:(nia) ltac:(nia)) as (b2 & E2 & L2 & V2 & _). exists b2.
  split; [exact E2|]. split; [lia|]. split.
  - intros r Hr. rewrite V2, V1 by nia. assert (C : r = 0 \/ r = 1) by lia.
    destruct C as [->| ->]; repeat match goal with |- context [if ?c then _ else _] => first [replace c with true by lia|replace c with false by lia] end; reflexivity.
  - intros q Hq Hne. rewrite V2, V1 by lia. pose proof (Hne 0). pose proof (Hne 1).
    repeat match goal with |- context [if ?c then _ else _] => replace c with false by lia end. reflexivity.
Qed.

(** ** Rotations *)
Definition even_odd (P : Z) (X : Z -> F) (j : Z) : F * F := (X (2 * j), X (2 * P - 1 - 2 * j)).
Definition pre_val (Q : Z) (X : Z -> F) (w : cpx) (j : Z) : cpx :=
  let '(e, o) := even_odd (2 * Q) X j in
  if j <? Q then (add (mul (opp o) (fst w)) (mul e (snd w)), add (mul e (fst w)) (mul o (snd w)))
  else (add (mul (opp e) (snd w)) (mul o (fst w)), sub (mul (opp o) (snd w)) (mul e (fst w))).
Definition ipre_val (Q : Z) (X : Z -> F) (w : cpx) (j : Z) : cpx :=
  let '(e, o) := even_odd (2 * Q) X j in
  (sub (mul (opp e) (fst w)) (mul o (snd w)), add (mul (opp o) (fst w)) (mul e (snd w))).

Lemma inp_at src b b' q : (src = None -> at_ b' q = at_ b q) -> at_ (inp src b') q = at_ (inp src b) q.
Proof. destruct src; cbn; auto. Qed.
Lemma inp_len src (b b' : list F) : zlen b' = zlen b -> zlen (inp src b') = zlen (inp src b).
Proof. destruct src; cbn; auto. Qed.
Lemma cat_inp src b b' q : (src = None -> cat b' q = cat b q) -> cat (inp src b') q = cat (inp src b) q.
Proof. destruct src; cbn; auto. Qed.

Lemma mdct_pre_ok rot src y Q : 0 <= Q -> r_n4 rot = 2 * Q -> zlen (r_w rot) = 2 * Q ->
  4 * Q <= zlen y -> 4 * Q <= zlen (inp src y) ->
  exists y', mdct_pre_fft f0 add sub mul opp rot src y = Some y' /\ zlen y' = zlen y /\
    forall j, 0 <= j < 2 * Q -> cat y' j = pre_val Q (at_ (inp src y)) (znth (r_w rot) j d1) j.
Proof.
  intros HQ En Ew Hy Hx. unfold mdct_pre_fft. rewrite En.
  match goal with |- context [while ?fu ?c ?f ?st] =>
    destruct (while_inv (fun k '(x0, x1, k0, k1, b) => x0 = 2 * k /\ x1 = 4 * Q - 2 * k /\ k0 = k /\ k1 = 2 * Q - k /\ zlen b = zlen y /\
        (forall q, 2 * k <= q < 4 * Q - 2 * k -> at_ (inp src b) q = at_ (inp src y) q) /\
        (forall j, 0 <= j < k \/ 2 * Q - k <= j < 2 * Q -> cat b j = pre_val Q (at_ (inp src y)) (znth (r_w rot) j d1) j)) c f Q HQ) with (fuel := fu) (s := st) as (s' & E & V)
  end.
  - intros k [[[[x0 x1] k0] k1] b] Hk (-> & -> & _). lia.
  - intros k [[[[x0 x1] k0] k1] b] Hk (-> & -> & -> & -> & Lb & U & D).
    assert (Li : zlen (inp src b) = zlen (inp src y)) by (apply inp_len; exact Lb).
    rewrite !(rdt_ok _ _ d1) by lia. rewrite !rd_ok by lia. cbn [bind]. rewrite !U by lia.
    set (u := (_, _)). set (v := (_, _)).
    destruct (wrc_ok b k u ltac:(lia) ltac:(lia)) as (b1 & E1 & L1 & V1 & R1). rewrite E1. cbn [bind].
    destruct (wrc_ok b1 (2 * Q - k - 1) v ltac:(lia) ltac:(lia)) as (b2 & E2 & L2 & V2 & R2). rewrite E2. cbn [bind].
    eexists. split; [reflexivity|]. do 4 (split; [lia|]). split; [lia|]. split.
    + intros q Hq. rewrite <- U by lia. apply inp_at. intros _. rewrite R2, R1 by lia. reflexivity.
    + intros j Hj. rewrite V2, V1 by lia. destruct (Z.eq_dec j k) as [->|N1].
      * replace (k =? 2 * Q - k - 1) with false by lia. rewrite Z.eqb_refl. unfold u, pre_val, even_odd. replace (k <? Q) with true by lia.
        replace (4 * Q - 2 * k - 1) with (2 * (2 * Q) - 1 - 2 * k) by lia. reflexivity.
      * destruct (Z.eq_dec j (2 * Q - k - 1)) as [->|N2].
        -- rewrite Z.eqb_refl. unfold v, pre_val, even_odd. replace (2 * Q - k - 1 <? Q) with false by lia.
           replace (4 * Q - 2 * k - 2) with (2 * (2 * Q - k - 1)) by lia. replace (2 * (2 * Q) - 1 - 2 * (2 * Q - k - 1)) with (2 * k + 1) by lia. reflexivity.
        -- replace (j =? 2 * Q - k - 1) with false by lia. replace (j =? k) with false by lia. apply D. lia.
  - do 3 (split; [lia|]). split; [lia|]. split; [reflexivity|]. split; [reflexivity|]. intros; lia.
  - lia.
  - rewrite E. destruct s' as [[[[x0 x1] k0] k1] b]. cbn [bind snd]. destruct V as (_ & _ & _ & _ & Lb & _ & D). exists b. split; [reflexivity|]. split; [exact Lb|].
    intros j Hj. apply D. lia.
Qed.

Lemma imdct_pre_ok rot src y Q : 0 <= Q -> r_n4 rot = 2 * Q -> zlen (r_w rot) = 2 * Q ->
  4 * Q <= zlen y -> 4 * Q <= zlen (inp src y) ->
  exists y', imdct_pre_fft f0 add sub mul opp rot src y = Some y' /\ zlen y' = zlen y /\
    forall j, 0 <= j < 2 * Q -> cat y' j = ipre_val Q (at_ (inp src y)) (znth (r_w rot) j d1) j.
Proof.
  intros HQ En Ew Hy Hx. unfold imdct_pre_fft. rewrite En.
  match goal with |- context [while ?fu ?c ?f ?st] =>
    destruct (while_inv (fun k '(x0, x1, k0, k1, b) => x0 = 2 * k /\ x1 = 4 * Q - 2 * k /\ k0 = k /\ k1 = 2 * Q - k /\ zlen b = zlen y /\
        (forall q, 2 * k <= q < 4 * Q - 2 * k -> at_ (inp src b) q = at_ (inp src y) q) /\
        (forall j, 0 <= j < k \/ 2 * Q - k <= j < 2 * Q -> cat b j = ipre_val Q (at_ (inp src y)) (znth (r_w rot) j d1) j)) c f Q HQ) with (fuel := fu) (s := st) as (s' & E & V)
  end.
  - intros k [[[[x0 x1] k0] k1] b] Hk (-> & -> & _). lia.
  - intros k [[[[x0 x1] k0] k1] b] Hk (-> & -> & -> & -> & Lb & U & D).
    assert (Li : zlen (inp src b) = zlen (inp src y)) by (apply inp_len; exact Lb).
    rewrite !(rdt_ok _ _ d1) by lia. rewrite !rd_ok by lia. cbn [bind]. rewrite !U by lia.
    set (u := (_, _)). destruct (wrc_ok b k u ltac:(lia) ltac:(lia)) as (b1 & E1 & L1 & V1 & R1). rewrite E1. cbn [bind].
    set (v := (_, _)). destruct (wrc_ok b1 (2 * Q - k - 1) v ltac:(lia) ltac:(lia)) as (b2 & E2 & L2 & V2 & R2). rewrite E2. cbn [bind].
    eexists. split; [reflexivity|]. do 4 (split; [lia|]). split; [lia|]. split.
    + intros q Hq. rewrite <- U by lia. apply inp_at. intros _. rewrite R2, R1 by lia. reflexivity.
    + intros j Hj. rewrite V2, V1 by lia. destruct (Z.eq_dec j k) as [->|N1].
      * replace (k =? 2 * Q - k - 1) with false by lia. rewrite Z.eqb_refl. unfold u, ipre_val, even_odd.
        replace (4 * Q - 2 * k - 1) with (2 * (2 * Q) - 1 - 2 * k) by lia. reflexivity.
      * destruct (Z.eq_dec j (2 * Q - k - 1)) as [->|N2].
        -- rewrite Z.eqb_refl. unfold v, ipre_val, even_odd.
           replace (4 * Q - 2 * k - 2) with (2 * (2 * Q - k - 1)) by lia. replace (2 * (2 * Q) - 1 - 2 * (2 * Q - k - 1)) with (2 * k + 1) by lia. reflexivity.
        -- replace (j =? 2 * Q - k - 1) with false by lia. replace (j =? k) with false by lia. apply D. lia.
  - do 3 (split; [lia|]). split; [lia|]. split; [reflexivity|]. split; [reflexivity|]. intros; lia.
  - lia.
  - rewrite E. destruct s' as [[[[x0 x1] k0] k1] b]. cbn [bind snd]. destruct V as (_ & _ & _ & _ & Lb & _ & D). exists b. split; [reflexivity|]. split; [exact Lb|].
    intros j Hj. apply D. lia.
Qed.

Lemma mdct_post_ok rot src y Q : 0 <= Q -> r_n4 rot = 2 * Q -> zlen (r_w rot) = 2 * Q ->
  4 * Q <= zlen y -> 4 * Q <= zlen (inp src y) ->
  exists y', mdct_post_fft f0 add sub mul rot src y = Some y' /\ zlen y' = zlen y /\
    forall p, 0 <= p < 2 * Q ->
      let z := cat (inp src y) p in let w := znth (r_w rot) p d1 in
      at_ y' (2 * p) = add (mul (snd z) (snd w)) (mul (fst z) (fst w)) /\
      at_ y' (2 * (2 * Q) - 1 - 2 * p) = sub (mul (fst z) (snd w)) (mul (snd z) (fst w)).
Proof.
  intros HQ En Ew Hy Hx. unfold mdct_post_fft. rewrite En. replace (2 * Q / 2) with Q by (rewrite Z.mul_comm, Z.div_mul; lia).
  match goal with |- context [while ?fu ?c ?f ?st] =>
    destruct (while_inv (fun k '(k0, k1, y0, y1, b) => k0 = Q + k /\ k1 = Q - 1 - k /\ y0 = 2 * Q + 2 * k /\ y1 = 2 * Q - 2 * k /\ zlen b = zlen y /\
        (forall q, 0 <= q < Q - k \/ Q + k <= q < 2 * Q -> cat (inp src b) q = cat (inp src y) q) /\
        (forall p, Q - k <= p < Q + k ->
          at_ b (2 * p) = add (mul (snd (cat (inp src y) p)) (snd (znth (r_w rot) p d1))) (mul (fst (cat (inp src y) p)) (fst (znth (r_w rot) p d1))) /\
          at_ b (2 * (2 * Q) - 1 - 2 * p) = sub (mul (fst (cat (inp src y) p)) (snd (znth (r_w rot) p d1))) (mul (snd (cat (inp src y) p)) (fst (znth (r_w rot) p d1))))) c f Q HQ) with (fuel := fu) (s := st) as (s' & E & V)
  end.
  - intros k [[[[x0 x1] k0] k1] b] Hk (-> & -> & -> & -> & _). lia.
  - intros k [[[[x0 x1] k0] k1] b] Hk (-> & -> & -> & -> & Lb & U & D).
    assert (Li : zlen (inp src b) = zlen (inp src y)) by (apply inp_len; exact Lb).
    rewrite !rdc_ok by lia. rewrite !(rdt_ok _ _ d1) by lia. cbn [bind]. rewrite !U by lia.
    match goal with |- context [wr b ?i ?v] => destruct (wr_ok b i v ltac:(lia)) as (b1 & E1 & L1 & V1) end. rewrite E1. cbn [bind].
    match goal with |- context [wr b1 ?i ?v] => destruct (wr_ok b1 i v ltac:(lia)) as (b2 & E2 & L2 & V2) end. rewrite E2. cbn [bind].
    match goal with |- context [wr b2 ?i ?v] => destruct (wr_ok b2 i v ltac:(lia)) as (b3 & E3 & L3 & V3) end. rewrite E3. cbn [bind].
    match goal with |- context [wr b3 ?i ?v] => destruct (wr_ok b3 i v ltac:(lia)) as (b4 & E4 & L4 & V4) end. rewrite E4. cbn [bind].
    eexists. split; [reflexivity|]. do 4 (split; [lia|]). split; [lia|]. split.
    + intros q Hq. rewrite <- U by lia. apply cat_inp. intros _. unfold cat. rewrite !V4, !V3, !V2, !V1 by lia.
      repeat match goal with |- context [if ?c then _ else _] => replace c with false by lia end. reflexivity.
    + intros p Hp. rewrite !V4, !V3, !V2, !V1 by lia.
      destruct (Z.eq_dec p (Q + k)) as [->|N1]; [|destruct (Z.eq_dec p (Q - 1 - k)) as [->|N2]];
        repeat match goal with |- context [if ?c then _ else _] => first [replace c with true by lia|replace c with false by lia] end.
      * split; reflexivity.
      * split; reflexivity.
      * apply D. lia.
  - do 3 (split; [lia|]). split; [lia|]. split; [reflexivity|]. split; [reflexivity|]. intros; lia.
  - lia.
  - rewrite E. destruct s' as [[[[x0 x1] k0] k1] b]. cbn [bind snd]. destruct V as (_ & _ & _ & _ & Lb & _ & D). exists b. split; [reflexivity|]. split; [exact Lb|].
    intros j Hj. apply D. lia.
Qed.

Lemma imdct_post_ok rot src y Q : 0 <= Q -> r_n4 rot = 2 * Q -> zlen (r_w rot) = 2 * Q ->
  4 * Q <= zlen y -> 4 * Q <= zlen (inp src y) ->
  exists y', imdct_post_fft f0 add sub mul rot src y = Some y' /\ zlen y' = zlen y /\
    forall p, 0 <= p < 2 * Q ->
      let z := cat (inp src y) p in let w := znth (r_w rot) p d1 in
      at_ y' (2 * p) = sub (mul (fst z) (snd w)) (mul (snd z) (fst w)) /\
      at_ y' (2 * (2 * Q) - 1 - 2 * p) = add (mul (fst z) (fst w)) (mul (snd z) (snd w)).
Proof.
  intros HQ En Ew Hy Hx. unfold imdct_post_fft. rewrite En.
  match goal with |- context [while ?fu ?c ?f ?st] =>
    destruct (while_inv (fun k '(k0, k1, y0, y1, b) => k0 = k /\ k1 = 2 * Q - k /\ y0 = 2 * k /\ y1 = 4 * Q - 2 * k /\ zlen b = zlen y /\
        (forall q, k <= q < 2 * Q - k -> cat (inp src b) q = cat (inp src y) q) /\
        (forall p, 0 <= p < k \/ 2 * Q - k <= p < 2 * Q ->
          at_ b (2 * p) = sub (mul (fst (cat (inp src y) p)) (snd (znth (r_w rot) p d1))) (mul (snd (cat (inp src y) p)) (fst (znth (r_w rot) p d1))) /\
          at_ b (2 * (2 * Q) - 1 - 2 * p) = add (mul (fst (cat (inp src y) p)) (fst (znth (r_w rot) p d1))) (mul (snd (cat (inp src y) p)) (snd (znth (r_w rot) p d1))))) c f Q HQ) with (fuel := fu) (s := st) as (s' & E & V)
  end.
  - intros k [[[[x0 x1] k0] k1] b] Hk (-> & -> & -> & -> & _). lia.
  - intros k [[[[x0 x1] k0] k1] b] Hk (-> & -> & -> & -> & Lb & U & D).
    assert (Li : zlen (inp src b) = zlen (inp src y)) by (apply inp_len; exact Lb).
    rewrite !rdc_ok by lia. rewrite !(rdt_ok _ _ d1) by lia. cbn [bind]. rewrite !U by lia.
    match goal with |- context [wr b ?i ?v] => destruct (wr_ok b i v ltac:(lia)) as (b1 & E1 & L1 & V1) end. rewrite E1. cbn [bind].
    match goal with |- context [wr b1 ?i ?v] => destruct (wr_ok b1 i v ltac:(lia)) as (b2 & E2 & L2 & V2) end. rewrite E2. cbn [bind].
    match goal with |- context [wr b2 ?i ?v] => destruct (wr_ok b2 i v ltac:(lia)) as (b3 & E3 & L3 & V3) end. rewrite E3. cbn [bind].
    match goal with |- context [wr b3 ?i ?v] => destruct (wr_ok b3 i v ltac:(lia)) as (b4 & E4 & L4 & V4) end. rewrite E4. cbn [bind].
    eexists. split; [reflexivity|]. do 4 (split; [lia|]). split; [lia|]. split.
    + intros q Hq. rewrite <- U by lia. apply cat_inp. intros _. unfold cat. rewrite !V4, !V3, !V2, !V1 by lia.
      repeat match goal with |- context [if ?c then _ else _] => replace c with false by lia end. reflexivity.
    + intros p Hp. rewrite !V4, !V3, !V2, !V1 by lia.
      destruct (Z.eq_dec p k) as [->|N1]; [|destruct (Z.eq_dec p (2 * Q - k - 1)) as [->|N2]];
        repeat match goal with |- context [if ?c then _ else _] => first [replace c with true by lia|replace c with false by lia] end.
      * split; reflexivity.
      * split; reflexivity.
      * apply D. lia.
  - do 3 (split; [lia|]). split; [lia|]. split; [reflexivity|]. split; [reflexivity|]. intros; lia.
  - lia.
  - rewrite E. destruct s' as [[[[x0 x1] k0] k1] b]. cbn [bind snd]. destruct V as (_ & _ & _ & _ & Lb & _ & D). exists b. split; [reflexivity|]. split; [exact Lb|].
    intros j Hj. apply D. lia.
Qed.

(** ** Window before the transform
    [tin] is the stream of the delayed samples followed by the new ones. *)
Definition tin (nd : Z) (d x : list F) (n : Z) : F := if n <? nd then at_ d n else at_ x (n - nd).
Definition win_lo (ns nd : Z) (win d x : list F) (i : Z) : F :=
  sub (mul (tin nd d x i) (at_ win i)) (mul (tin nd d x (ns - 1 - i)) (at_ win (ns - 1 - i))).
Definition win_hi (ns nd : Z) (win d x : list F) (i : Z) : F :=
  if i <? ns - nd then mul (tin nd d x (ns + i)) (at_ win (ns + i))
  else add (mul (tin nd d x (ns + i)) (at_ win (ns + i))) (mul (tin nd d x (2 * ns - 1 - i)) (at_ win (2 * ns - 1 - i))).

Record win_inv (h nd : Z) (win x d y : list F) (k m x1 : Z) (s : win_state) : Prop := mkWinInv {
  wi_x0 : p_x0 s = 2 * h - nd + k; wi_x1 : p_x1 s = x1; wi_w0 : p_w0 s = k; wi_w1 : p_w1 s = 2 * h - k; wi_w2 : p_w2 s = 2 * h + k;
  wi_w3 : p_w3 s = 2 * h + nd - m; wi_y0 : p_y0 s = h - k; wi_y1 : p_y1 s = h + k; wi_d0 : p_d0 s = k; wi_d1 : p_d1 s = nd - m;
  wi_ld : zlen (m_d s) = zlen d; wi_ly : zlen (m_y s) = zlen y;
  wi_dn : forall q, 0 <= q < k \/ nd - m <= q < nd -> at_ (m_d s) q = at_ x (2 * h - nd + q);
  wi_do : forall q, k <= q < nd - m -> at_ (m_d s) q = at_ d q;
  wi_lo : forall i, 0 <= i < k -> at_ (m_y s) (h - 1 - i) = win_lo (2 * h) nd win d x i;
  wi_hi : forall i, 0 <= i < k -> at_ (m_y s) (h + i) = win_hi (2 * h) nd win d x i }.

Section Win.
Variables (h nd : Z) (win x d y : list F).
Hypothesis Hnd : h <= nd <= 2 * h.
Hypothesis Hh : 0 <= h.
Hypothesis Lw : zlen win = 2 * h + nd.
Hypothesis Lx : 2 * h <= zlen x.
Hypothesis Ld : nd <= zlen d.
Hypothesis Ly : 2 * h <= zlen y.
Let a := 2 * h - nd.

Lemma win_step1_ok k s : 0 <= k < a -> win_inv h nd win x d y k 0 (a - k) s ->
  exists s', win_step1 f0 sub mul win x s = Some s' /\ win_inv h nd win x d y (k + 1) 0 (a - (k + 1)) s'.
Proof.
  intros Hk []. unfold win_step1. subst a.
  rewrite wi_x2, wi_x3, wi_w4, wi_w5, wi_w6, wi_w7, wi_y2, wi_y3, wi_d2, wi_d3.
  rewrite !rd_ok by lia. cbn [bind].
  match goal with |- context [wr (m_y s) ?i ?v] => destruct (wr_ok (m_y s) i v ltac:(lia)) as (y1 & E1 & L1 & V1) end. rewrite E1. cbn [bind].
  match goal with |- context [wr (m_d s) ?i ?v] => destruct (wr_ok (m_d s) i v ltac:(lia)) as (e1 & E2 & L2 & V2) end. rewrite E2. cbn [bind].
  match goal with |- context [wr y1 ?i ?v] => destruct (wr_ok y1 i v ltac:(lia)) as (y2 & E3 & L3 & V3) end. rewrite E3. cbn [bind].
  eexists. split; [reflexivity|]. constructor; cbn [p_x0 p_x1 p_w0 p_w1 p_w2 p_w3 p_y0 p_y1 p_d0 p_d1 m_d m_y]; try lia.
  - intros q Hq. rewrite V2 by lia. destruct (Z.eq_dec q k) as [->|N].
    + rewrite Z.eqb_refl. reflexivity.
    + replace (q =? k) with false by lia. apply wi_dn0. lia.
  - intros q Hq. rewrite V2 by lia. replace (q =? k) with false by lia. apply wi_do0. lia.
  - intros i Hi. rewrite V3, V1 by lia. replace (h - 1 - i =? h + k) with false by lia. destruct (Z.eq_dec i k) as [->|N].
    + replace (h - 1 - k =? h - k - 1) with true by lia. unfold win_lo, tin. replace (k <? nd) with true by lia. replace (2 * h - 1 - k <? nd) with false by lia.
      rewrite wi_do0 by lia. replace (2 * h - k - 1) with (2 * h - 1 - k) by lia. replace (2 * h - nd - k - 1) with (2 * h - 1 - k - nd) by lia. reflexivity.
    + replace (h - 1 - i =? h - k - 1) with false by lia. apply wi_lo0. lia.
  - intros i Hi. rewrite V3, V1 by lia. replace (h + i =? h - k - 1) with false by lia. destruct (Z.eq_dec i k) as [->|N].
    + rewrite Z.eqb_refl. unfold win_hi, tin. replace (k <? 2 * h - nd) with true by lia. replace (2 * h + k <? nd) with false by lia.
      replace (2 * h + k - nd) with (2 * h - nd + k) by lia. reflexivity.
    + replace (h + i =? h + k) with false by lia. apply wi_hi0. lia.
Qed.

Lemma win_step2_ok k s : a <= k < h -> win_inv h nd win x d y k (k - a) (2 * h - (k - a)) s ->
  exists s', win_step2 f0 add sub mul win x s = Some s' /\ win_inv h nd win x d y (k + 1) (k + 1 - a) (2 * h - (k + 1 - a)) s'.
Proof.
  intros Hk []. unfold win_step2. subst a.
  rewrite wi_x2, wi_x3, wi_w4, wi_w5, wi_w6, wi_w7, wi_y2, wi_y3, wi_d2, wi_d3.
  rewrite !rd_ok by lia. cbn [bind].
  match goal with |- context [wr (m_y s) ?i ?v] => destruct (wr_ok (m_y s) i v ltac:(lia)) as (y1 & E1 & L1 & V1) end. rewrite E1. cbn [bind].
  match goal with |- context [wr (m_d s) ?i ?v] => destruct (wr_ok (m_d s) i v ltac:(lia)) as (e1 & E2 & L2 & V2) end. rewrite E2. cbn [bind].
  match goal with |- context [wr e1 ?i ?v] => destruct (wr_ok e1 i v ltac:(lia)) as (e2 & E4 & L4 & V4) end. rewrite E4. cbn [bind].
  match goal with |- context [wr y1 ?i ?v] => destruct (wr_ok y1 i v ltac:(lia)) as (y2 & E3 & L3 & V3) end. rewrite E3. cbn [bind].
  eexists. split; [reflexivity|]. constructor; cbn [p_x0 p_x1 p_w0 p_w1 p_w2 p_w3 p_y0 p_y1 p_d0 p_d1 m_d m_y]; try lia.
  - intros q Hq. rewrite V4, V2 by lia. destruct (Z.eq_dec q (nd - (k - (2 * h - nd)) - 1)) as [E|N'].
    + replace (q =? _) with true by lia. f_equal. lia.
    + replace (q =? nd - _ - 1) with false by lia. destruct (Z.eq_dec q k) as [->|N].
      * rewrite Z.eqb_refl. reflexivity.
      * replace (q =? k) with false by lia. apply wi_dn0. lia.
  - intros q Hq. rewrite V4, V2 by lia. replace (q =? nd - _ - 1) with false by lia. replace (q =? k) with false by lia. apply wi_do0. lia.
  - intros i Hi. rewrite V3, V1 by lia. replace (h - 1 - i =? h + k) with false by lia. destruct (Z.eq_dec i k) as [->|N].
    + replace (h - 1 - k =? h - k - 1) with true by lia. unfold win_lo, tin. replace (k <? nd) with true by lia. replace (2 * h - 1 - k <? nd) with true by lia.
      rewrite !wi_do0 by lia. replace (nd - (k - (2 * h - nd)) - 1) with (2 * h - 1 - k) by lia. replace (2 * h - k - 1) with (2 * h - 1 - k) by lia. reflexivity.
    + replace (h - 1 - i =? h - k - 1) with false by lia. apply wi_lo0. lia.
  - intros i Hi. rewrite V3, V1 by lia. replace (h + i =? h - k - 1) with false by lia. destruct (Z.eq_dec i k) as [->|N].
    + rewrite Z.eqb_refl. unfold win_hi, tin. replace (k <? 2 * h - nd) with false by lia. replace (2 * h + k <? nd) with false by lia.
      replace (2 * (2 * h) - 1 - k <? nd) with false by lia. f_equal; f_equal; f_equal; lia.
    + replace (h + i =? h + k) with false by lia. apply wi_hi0. lia.
Qed.

Lemma mdct_window_ok : (exists u, a = 2 * u) -> (exists v, h = 2 * v) ->
  exists d' y', mdct_window f0 add sub mul (2 * h) nd win x d y = Some (d', y') /\ zlen d' = zlen d /\ zlen y' = zlen y /\
    (forall q, 0 <= q < nd -> at_ d' q = at_ x (2 * h - nd + q)) /\
    (forall i, 0 <= i < h -> at_ y' (h - 1 - i) = win_lo (2 * h) nd win d x i /\ at_ y' (h + i) = win_hi (2 * h) nd win d x i).
Proof.
  intros (u & Eu) (v & Ev). unfold mdct_window. replace (2 * h / 2) with h by (rewrite Z.mul_comm, Z.div_mul; lia). fold a.
  match goal with |- context [while ?fu ?c ?f ?st] =>
    destruct (while_inv (fun k => win_inv h nd win x d y (2 * k) 0 (a - 2 * k)) c f u ltac:(lia)) with (fuel := fu) (s := st) as (s1 & E1 & I1) end.
  - intros k s Hk []. rewrite wi_x3. lia.
  - intros k s Hk I. destruct (win_step1_ok (2 * k) s ltac:(lia) I) as (s' & E & I'). rewrite E. cbn [bind].
    destruct (win_step1_ok (2 * k + 1) s' ltac:(lia) I') as (s2 & E2 & I2). exists s2. split; [exact E2|].
    replace (2 * (k + 1)) with (2 * k + 1 + 1) by lia. exact I2.
  - constructor; cbn [p_x0 p_x1 p_w0 p_w1 p_w2 p_w3 p_y0 p_y1 p_d0 p_d1 m_d m_y]; try lia; try (intros; lia). intros; reflexivity.
  - lia.
  - rewrite E1. cbn [bind].
    match goal with |- context [while ?fu ?c ?f ?st] =>
      destruct (while_inv (fun k => win_inv h nd win x d y (a + 2 * k) (2 * k) (2 * h - 2 * k)) c f (v - u) ltac:(lia)) with (fuel := fu) (s := st) as (s2 & E2 & I2) end.
    + intros k s Hk []. rewrite wi_x2, wi_x3. lia.
    + intros k s Hk I. destruct (win_step2_ok (a + 2 * k) s ltac:(lia)) as (s' & E & I').
      { replace (a + 2 * k - a) with (2 * k) by lia. exact I. }
      rewrite E. cbn [bind]. destruct (win_step2_ok (a + 2 * k + 1) s' ltac:(lia) I') as (s2 & E2 & I2). exists s2. split; [exact E2|].
      replace (a + 2 * (k + 1)) with (a + 2 * k + 1 + 1) by lia. replace (2 * (k + 1)) with (a + 2 * k + 1 + 1 - a) by lia. exact I2.
    + destruct I1. constructor; cbn [p_x0 p_x1 p_w0 p_w1 p_w2 p_w3 p_y0 p_y1 p_d0 p_d1 m_d m_y]; try lia.
      * intros q Hq. apply wi_dn0. lia.
      * intros q Hq. apply wi_do0. lia.
      * intros i Hi. apply wi_lo0. lia.
      * intros i Hi. apply wi_hi0. lia.
    + lia.
    + rewrite E2. cbn [bind]. exists (m_d s2), (m_y s2). destruct I2. split; [reflexivity|]. split; [assumption|]. split; [assumption|]. split.
      * intros q Hq. apply wi_dn0. lia.
      * intros i Hi. split; [apply wi_lo0|apply wi_hi0]; lia.
Qed.
End Win.

(** ** Window after the inverse transform *)
Definition iwin_y (h nd : Z) (win x d : list F) (q : Z) : F :=
  let w := at_ win (2 * h + nd - 1 - q) in
  if q <? nd - h then sub (at_ d q) (mul (at_ x (nd - h - 1 - q)) w)
  else if q <? nd then add (at_ d q) (mul (at_ x (q - (nd - h))) w)
  else mul (at_ x (q - (nd - h))) w.
Definition iwin_d (h nd : Z) (win x : list F) (q : Z) : F :=
  mul (at_ x (if q <? nd - h then 3 * h - nd + q else h + nd - 1 - q)) (at_ win (nd - 1 - q)).

Record iwin_inv (h nd : Z) (win x d y : list F) (m : Z) (s : iwin_state) : Prop := mkIwinInv {
  ii_x : q_x s = m; ii_w0 : q_w0 s = 3 * h - m; ii_w1 : q_w1 s = 3 * h + Z.min m (nd - h); ii_w2 : q_w2 s = Z.max 0 (m - h);
  ii_dx0 : q_dx0 s = nd - h - Z.min m (nd - h); ii_dx1 : q_dx1 s = nd - h + Z.min m h;
  ii_y0 : q_y0 s = nd - h - Z.min m (nd - h); ii_y1 : q_y1 s = nd - h + Z.min m (3 * h - nd);
  ii_dy2 : q_dy2 s = nd - Z.max 0 (m - h); ii_dy3 : q_dy3 s = Z.max 0 (m - (3 * h - nd));
  ii_ld : zlen (q_d s) = zlen d; ii_ly : zlen (q_y s) = zlen y;
  ii_old : m <= h -> forall q, 0 <= q < nd -> at_ (q_d s) q = at_ d q;
  ii_new : forall q, 0 <= q < m - (3 * h - nd) \/ nd - Z.max 0 (m - h) <= q < nd -> at_ (q_d s) q = iwin_d h nd win x q;
  ii_out : forall q, nd - h - Z.min m (nd - h) <= q < nd - h + Z.min m (3 * h - nd) -> at_ (q_y s) q = iwin_y h nd win x d q }.

Section Iwin.
Variables (h nd : Z) (win x d y : list F).
Hypothesis Hnd : h <= nd <= 2 * h.
Hypothesis Hh : 0 <= h.
Hypothesis Lw : zlen win = 2 * h + nd.
Hypothesis Lx : 2 * h <= zlen x.
Hypothesis Ld : nd <= zlen d.
Hypothesis Ly : 2 * h <= zlen y.

Ltac wr_ n v E L V := match goal with |- context [wr ?b ?i v] => destruct (wr_ok b i v ltac:(lia)) as (n & E & L & V) end.

Lemma iwin_lr_ok m s : 0 <= m < nd - h -> iwin_inv h nd win x d y m s ->
  exists s', (do s <- iwin_left f0 sub mul win x s; iwin_right f0 add mul win x s) = Some s' /\ iwin_inv h nd win x d y (m + 1) s'.
Proof.
  intros Hm []. unfold iwin_left, iwin_right.
  rewrite ii_x0, ii_w4, ii_w3, ii_w5, ii_dx2, ii_dx3, ii_y2, ii_y3, ii_dy4, ii_dy5.
  rewrite !rd_ok by lia. cbn [bind].
  match goal with |- context [wr (q_y s) ?i ?v] => destruct (wr_ok (q_y s) i v ltac:(lia)) as (y1 & E1 & L1 & V1) end. rewrite E1. cbn [bind q_x q_w0 q_w1 q_w2 q_dx0 q_dx1 q_y0 q_y1 q_dy2 q_dy3 q_d q_y].
  rewrite !rd_ok by lia. cbn [bind].
  match goal with |- context [wr y1 ?i ?v] => destruct (wr_ok y1 i v ltac:(lia)) as (y2 & E2 & L2 & V2) end. rewrite E2. cbn [bind].
  eexists. split; [reflexivity|]. constructor; cbn [q_x q_w0 q_w1 q_w2 q_dx0 q_dx1 q_y0 q_y1 q_dy2 q_dy3 q_d q_y]; try lia.
  - intros _. apply ii_old0. lia.
  - intros q Hq. rewrite V2, V1 by lia. destruct (Z.eq_dec q (nd - h + m)) as [->|N1].
    + replace (_ =? _) with true by lia. unfold iwin_y. replace (nd - h + m <? nd - h) with false by lia. replace (nd - h + m <? nd) with true by lia.
      rewrite ii_old0 by lia. f_equal; [f_equal; lia|]. f_equal; f_equal; lia.
    + replace (q =? nd - h + _) with false by lia. destruct (Z.eq_dec q (nd - h - m - 1)) as [->|N2].
      * replace (_ =? _) with true by lia. unfold iwin_y. replace (nd - h - m - 1 <? nd - h) with true by lia.
        rewrite ii_old0 by lia. f_equal; [f_equal; lia|]. f_equal; f_equal; lia.
      * replace (q =? _) with false by lia. apply ii_out0. lia.
Qed.

Lemma iwin_right_ok m s : nd - h <= m < h -> iwin_inv h nd win x d y m s ->
  exists s', iwin_right f0 add mul win x s = Some s' /\ iwin_inv h nd win x d y (m + 1) s'.
Proof.
  intros Hm []. unfold iwin_right.
  rewrite ii_x0, ii_w4, ii_w3, ii_w5, ii_dx2, ii_dx3, ii_y2, ii_y3, ii_dy4, ii_dy5.
  rewrite !rd_ok by lia. cbn [bind].
  match goal with |- context [wr (q_y s) ?i ?v] => destruct (wr_ok (q_y s) i v ltac:(lia)) as (y1 & E1 & L1 & V1) end. rewrite E1. cbn [bind].
  eexists. split; [reflexivity|]. constructor; cbn [q_x q_w0 q_w1 q_w2 q_dx0 q_dx1 q_y0 q_y1 q_dy2 q_dy3 q_d q_y]; try lia.
  - intros _. apply ii_old0. lia.
  - intros q Hq. rewrite V1 by lia. destruct (Z.eq_dec q (nd - h + m)) as [->|N1].
    + replace (_ =? _) with true by lia. unfold iwin_y. replace (nd - h + m <? nd - h) with false by lia. replace (nd - h + m <? nd) with true by lia.
      rewrite ii_old0 by lia. f_equal; [f_equal; lia|]. f_equal; f_equal; lia.
    + replace (q =? nd - h + _) with false by lia. apply ii_out0. lia.
Qed.

Lemma iwin_od_ok m s : h <= m < 3 * h - nd -> iwin_inv h nd win x d y m s ->
  exists s', (do s <- iwin_out f0 mul win x s; iwin_dend f0 mul win x s) = Some s' /\ iwin_inv h nd win x d y (m + 1) s'.
Proof.
  intros Hm []. unfold iwin_out, iwin_dend.
  rewrite ii_x0, ii_w4, ii_w3, ii_w5, ii_dx2, ii_dx3, ii_y2, ii_y3, ii_dy4, ii_dy5.
  rewrite !rd_ok by lia. cbn [bind].
  match goal with |- context [wr (q_y s) ?i ?v] => destruct (wr_ok (q_y s) i v ltac:(lia)) as (y1 & E1 & L1 & V1) end. rewrite E1. cbn [bind q_x q_w0 q_w1 q_w2 q_dx0 q_dx1 q_y0 q_y1 q_dy2 q_dy3 q_d q_y].
  rewrite !rd_ok by lia. cbn [bind].
  match goal with |- context [wr (q_d s) ?i ?v] => destruct (wr_ok (q_d s) i v ltac:(lia)) as (d1' & E2 & L2 & V2) end. rewrite E2. cbn [bind].
  eexists. split; [reflexivity|]. constructor; cbn [q_x q_w0 q_w1 q_w2 q_dx0 q_dx1 q_y0 q_y1 q_dy2 q_dy3 q_d q_y]; try lia.
  - intros q Hq. rewrite V2 by lia. destruct (Z.eq_dec q (nd - (m - h) - 1)) as [->|N].
    + replace (_ =? _) with true by lia. unfold iwin_d. replace (nd - (m - h) - 1 <? nd - h) with false by lia. f_equal; f_equal; lia.
    + replace (q =? _) with false by lia. apply ii_new0. lia.
  - intros q Hq. rewrite V1 by lia. destruct (Z.eq_dec q (nd - h + m)) as [->|N1].
    + replace (_ =? _) with true by lia. unfold iwin_y. replace (nd - h + m <? nd - h) with false by lia. replace (nd - h + m <? nd) with false by lia.
      f_equal; f_equal; lia.
    + replace (q =? nd - h + _) with false by lia. apply ii_out0. lia.
Qed.

Lemma iwin_dd_ok m s : 3 * h - nd <= m < 2 * h -> iwin_inv h nd win x d y m s ->
  exists s', (do s <- iwin_dstart f0 mul win x s; iwin_dend f0 mul win x s) = Some s' /\ iwin_inv h nd win x d y (m + 1) s'.
Proof.
  intros Hm []. unfold iwin_dstart, iwin_dend.
  rewrite ii_x0, ii_w4, ii_w3, ii_w5, ii_dx2, ii_dx3, ii_y2, ii_y3, ii_dy4, ii_dy5.
  rewrite !rd_ok by lia. cbn [bind].
  match goal with |- context [wr (q_d s) ?i ?v] => destruct (wr_ok (q_d s) i v ltac:(lia)) as (d1' & E1 & L1 & V1) end. rewrite E1. cbn [bind q_x q_w0 q_w1 q_w2 q_dx0 q_dx1 q_y0 q_y1 q_dy2 q_dy3 q_d q_y].
  rewrite !rd_ok by lia. cbn [bind].
  match goal with |- context [wr d1' ?i ?v] => destruct (wr_ok d1' i v ltac:(lia)) as (d2' & E2 & L2 & V2) end. rewrite E2. cbn [bind].
  eexists. split; [reflexivity|]. constructor; cbn [q_x q_w0 q_w1 q_w2 q_dx0 q_dx1 q_y0 q_y1 q_dy2 q_dy3 q_d q_y]; try lia.
  - intros q Hq. rewrite V2, V1 by lia. destruct (Z.eq_dec q (nd - (m - h) - 1)) as [->|N].
    + replace (_ =? _) with true by lia. unfold iwin_d. replace (nd - (m - h) - 1 <? nd - h) with false by lia. f_equal; f_equal; lia.
    + replace (q =? nd - _ - 1) with false by lia. destruct (Z.eq_dec q (m - (3 * h - nd))) as [->|N2].
      * replace (_ =? _) with true by lia. unfold iwin_d. replace (_ <? nd - h) with true by lia. f_equal; f_equal; lia.
      * replace (q =? _) with false by lia. apply ii_new0. lia.
  - intros q Hq. apply ii_out0. lia.
Qed.

Lemma imdct_window_ok : (exists u, 2 * h - nd = 2 * u) -> (exists v, h = 2 * v) ->
  exists d' y', imdct_window f0 add sub mul (2 * h) nd win x d y = Some (d', y') /\ zlen d' = zlen d /\ zlen y' = zlen y /\
    (forall q, 0 <= q < nd -> at_ d' q = iwin_d h nd win x q) /\
    (forall q, 0 <= q < 2 * h -> at_ y' q = iwin_y h nd win x d q).
Proof.
  intros (u & Eu) (v & Ev). unfold imdct_window. replace (2 * h / 2) with h by (rewrite Z.mul_comm, Z.div_mul; lia).
  set (fu := Z.to_nat (2 * h)).
  assert (A : forall (f g : @iwin_state F -> option iwin_state) s s', (do s <- f s; g s) = Some s' -> forall s2, (do s <- f s'; g s) = Some s2 ->
    (do s <- f s; do s <- g s; do s <- f s; g s) = Some s2 :> option (@iwin_state F)).
  { intros f g s s' H s2 H2. destruct (f s); [|discriminate]. cbn [bind] in H. cbn [bind]. rewrite H. exact H2. }
  match goal with |- context [while fu ?c ?f ?st] =>
    destruct (while_inv (fun k => iwin_inv h nd win x d y (2 * k)) c f (v - u) ltac:(lia)) with (fuel := fu) (s := st) as (s1 & E1 & I1) end.
  - intros k s Hk []. rewrite ii_y2. lia.
  - intros k s Hk I. destruct (iwin_lr_ok (2 * k) s ltac:(lia) I) as (s' & E & I').
    destruct (iwin_lr_ok (2 * k + 1) s' ltac:(lia) I') as (s2 & E2 & I2). exists s2. split; [exact (A _ _ _ _ E _ E2)|].
    replace (2 * (k + 1)) with (2 * k + 1 + 1) by lia. exact I2.
  - constructor; cbn [q_x q_w0 q_w1 q_w2 q_dx0 q_dx1 q_y0 q_y1 q_dy2 q_dy3 q_d q_y]; try lia; intros; try lia. reflexivity.
  - lia.
  - rewrite E1. cbn [bind].
    match goal with |- context [while fu ?c ?f ?st] =>
      destruct (while_inv (fun k => iwin_inv h nd win x d y (nd - h + 2 * k)) c f u ltac:(lia)) with (fuel := fu) (s := st) as (s2 & E2 & I2) end.
    + intros k s Hk []. rewrite ii_y3. lia.
    + intros k s Hk I. destruct (iwin_right_ok (nd - h + 2 * k) s ltac:(lia) I) as (s' & E & I'). rewrite E. cbn [bind].
      destruct (iwin_right_ok (nd - h + 2 * k + 1) s' ltac:(lia) I') as (s2 & E2 & I2). exists s2. split; [exact E2|].
      replace (nd - h + 2 * (k + 1)) with (nd - h + 2 * k + 1 + 1) by lia. exact I2.
    + replace (nd - h + 2 * 0) with (2 * (v - u)) by lia. exact I1.
    + lia.
    + rewrite E2. cbn [bind].
      match goal with |- context [while fu ?c ?f ?st] =>
        destruct (while_inv (fun k => iwin_inv h nd win x d y (h + 2 * k)) c f u ltac:(lia)) with (fuel := fu) (s := st) as (s3 & E3 & I3) end.
      * intros k s Hk []. rewrite ii_y3. lia.
      * intros k s Hk I. destruct (iwin_od_ok (h + 2 * k) s ltac:(lia) I) as (s' & E & I').
        destruct (iwin_od_ok (h + 2 * k + 1) s' ltac:(lia) I') as (s3 & E3 & I3). exists s3. split; [exact (A _ _ _ _ E _ E3)|].
        replace (h + 2 * (k + 1)) with (h + 2 * k + 1 + 1) by lia. exact I3.
      * replace (h + 2 * 0) with (nd - h + 2 * u) by lia. exact I2.
      * lia.
      * rewrite E3. cbn [bind].
        match goal with |- context [while fu ?c ?f ?st] =>
          destruct (while_inv (fun k => iwin_inv h nd win x d y (3 * h - nd + 2 * k)) c f (v - u) ltac:(lia)) with (fuel := fu) (s := st) as (s4 & E4 & I4) end.
        -- intros k s Hk []. rewrite ii_dy4, ii_dy5. lia.
        -- intros k s Hk I. destruct (iwin_dd_ok (3 * h - nd + 2 * k) s ltac:(lia) I) as (s' & E & I').
           destruct (iwin_dd_ok (3 * h - nd + 2 * k + 1) s' ltac:(lia) I') as (s4 & E4 & I4). exists s4. split; [exact (A _ _ _ _ E _ E4)|].
           replace (3 * h - nd + 2 * (k + 1)) with (3 * h - nd + 2 * k + 1 + 1) by lia. exact I4.
        -- replace (3 * h - nd + 2 * 0) with (h + 2 * u) by lia. exact I3.
        -- lia.
        -- rewrite E4. cbn [bind]. exists (q_d s4), (q_y s4). destruct I4. split; [reflexivity|]. split; [assumption|]. split; [assumption|]. split.
           ++ intros q Hq. apply ii_new0. lia.
           ++ intros q Hq. apply ii_out0. lia.
Qed.
End Iwin.

(** ** Scale *)
Lemma rescale_ok b n f m : 0 <= m -> n = 4 * m -> n <= zlen b -> exists b', rescale f0 mul b n f = Some b' /\ zlen b' = zlen b /\
  forall q, 0 <= q -> at_ b' q = if q <? n then mul (at_ b q) f else at_ b q.
Proof.
  intros Hm -> Hl. unfold rescale. replace (4 * m / 4) with m by (rewrite Z.mul_comm, Z.div_mul; lia).
  match goal with |- context [for_ m ?g b] =>
    destruct (for_inv (fun k b' => zlen b' = zlen b /\ forall q, 0 <= q -> at_ b' q = if q <? 4 * k then mul (at_ b q) f else at_ b q) g m b Hm) as (b' & E & L & V)
  end.
  - split; [reflexivity|]. intros q Hq. replace (q <? 4 * 0) with false by lia. reflexivity.
  - intros k c Hk [L V]. rewrite rd_ok by lia. cbn [bind].
    match goal with |- context [wr c ?i ?v] => destruct (wr_ok c i v ltac:(lia)) as (c1 & E1 & L1 & V1) end. rewrite E1. cbn [bind]. rewrite rd_ok by lia. cbn [bind].
    match goal with |- context [wr c1 ?i ?v] => destruct (wr_ok c1 i v ltac:(lia)) as (c2 & E2 & L2 & V2) end. rewrite E2. cbn [bind]. rewrite rd_ok by lia. cbn [bind].
    match goal with |- context [wr c2 ?i ?v] => destruct (wr_ok c2 i v ltac:(lia)) as (c3 & E3 & L3 & V3) end. rewrite E3. cbn [bind]. rewrite rd_ok by lia. cbn [bind].
    match goal with |- context [wr c3 ?i ?v] => destruct (wr_ok c3 i v ltac:(lia)) as (c4 & E4 & L4 & V4) end. exists c4. split; [exact E4|]. split; [lia|].
    intros q Hq. rewrite V4, !V3, !V2, !V1, !V by lia.
    destruct (Z.eq_dec q (4 * k)) as [->|N0]; [|destruct (Z.eq_dec q (4 * k + 1)) as [->|N1]; [|destruct (Z.eq_dec q (4 * k + 2)) as [->|N2]; [|destruct (Z.eq_dec q (4 * k + 3)) as [->|N3]]]].
    1-4: repeat match goal with |- context [if ?c then _ else _] => first [replace c with true by lia|replace c with false by lia] end; reflexivity.
    replace (q =? 4 * k + 3) with false by lia. replace (q =? 4 * k + 2) with false by lia. replace (q =? 4 * k + 1) with false by lia. replace (q =? 4 * k) with false by lia.
    destruct (q <? 4 * k) eqn:C; [replace (q <? _) with true by lia|replace (q <? _) with false by lia]; reflexivity.
  - exists b'. auto.
Qed.
End Generic.
