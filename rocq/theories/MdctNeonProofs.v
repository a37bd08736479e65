(** * Proofs on the NEON kernels of the transform *)
From Coq Require Import ZArith List Bool Lia ZifyBool Ring.
From Verif Require Import Base BaseProofs ConfigModel MdctModel MdctProofs MdctFft MdctNeonModel.
Import ListNotations.
Local Open Scope Z_scope.

(** ** Outputs written by groups *)
Section Blocks.
Context {F : Type} (f0 : F).
Notation cat := (cat f0).
Notation at_ := (at_ f0).
Variables (p L : Z) (val : Z -> Z -> Z -> @cpx F).
Hypothesis HL : 0 < L.
Hypothesis Hp : 0 < p.
Definition pos (i r j : Z) : Z := i * (p * L) + r * L + j.

(** The outputs [(i, r, j)] with [lo <= j < hi] are written, the others are unchanged. *)
Definition block (i lo hi : Z) (b b' : list F) : Prop :=
  zlen b' = zlen b /\ (forall r j, 0 <= r < p -> lo <= j < hi -> cat b' (pos i r j) = val i r j) /\
  (forall q, 0 <= q -> (forall r j, 0 <= r < p -> lo <= j < hi -> q <> pos i r j) -> cat b' q = cat b q).
(** All of the outputs [(i, r, j)] with [i < n]. *)
Definition blocks (n : Z) (b b' : list F) : Prop :=
  zlen b' = zlen b /\ (forall i r j, 0 <= i < n -> 0 <= r < p -> 0 <= j < L -> cat b' (pos i r j) = val i r j) /\
  (forall q, n * (p * L) <= q -> cat b' q = cat b q).

Lemma block_nil i lo b : block i lo lo b b.
Proof. split; [reflexivity|]. split; [intros; lia|]. reflexivity. Qed.
Lemma block_app i lo mid hi b b1 b2 : 0 <= i -> 0 <= lo <= mid -> mid <= hi <= L -> block i lo mid b b1 -> block i mid hi b1 b2 -> block i lo hi b b2.
Proof.
  intros Hi H1 H2 (La & Va & Ua) (Lb & Vb & Ub). split; [lia|]. split.
  - intros r j Hr Hj. destruct (Z.lt_ge_cases j mid) as [C|C]; [|apply Vb; lia].
    rewrite Ub; [apply Va; lia|unfold pos; nia|]. intros r' j' Hr' Hj' E. unfold pos in E. apply pos_unique in E; lia.
  - intros q Hq N. rewrite Ub, Ua; [reflexivity|lia| |lia|]; intros r j Hr Hj; apply N; lia.
Qed.

Lemma blocks_rows n body y : 0 <= n ->
  (forall i b, 0 <= i < n -> zlen b = zlen y -> exists b', body i b = Some b' /\ block i 0 L b b') ->
  exists y', for_ n body y = Some y' /\ blocks n y y'.
Proof.
  intros Hn Hb. destruct (for_inv (fun k y' => blocks k y y') body n y Hn) as (y' & E & B).
  - split; [reflexivity|]. split; [intros; lia|]. reflexivity.
  - intros k b Hk (Lb & Vb & Ub). destruct (Hb k b Hk Lb) as (b' & E & Lc & Vc & Uc). exists b'. split; [exact E|]. split; [lia|]. split.
    + intros i r j Hi Hr Hj. destruct (Z.eq_dec i k) as [->|N]; [apply Vc; assumption|].
      rewrite Uc; [apply Vb; lia|unfold pos; nia|]. intros r' j' Hr' Hj' Eq. unfold pos in Eq. apply pos_unique in Eq; lia.
    + intros q Hq. rewrite Uc, Ub; [reflexivity|nia|nia|]. intros r j Hr Hj. unfold pos. nia.
  - exists y'. auto.
Qed.

(** Pairs, then the last one when [L] is odd. *)
Lemma row_pairs i pair last y : 0 <= i ->
  (forall j b, 0 <= j < L / 2 -> zlen b = zlen y -> exists b', pair j b = Some b' /\ block i (2 * j) (2 * j + 2) b b') ->
  (forall b, Z.odd L = true -> zlen b = zlen y -> exists b', last b = Some b' /\ block i (2 * (L / 2)) (2 * (L / 2) + 1) b b') ->
  exists y', (do y <- for_ (L / 2) pair y; if Z.odd L then last y else Some y) = Some y' /\ block i 0 L y y'.
Proof.
  intros Hi Hpair Hlast. pose proof (Z.div_mod L 2 ltac:(lia)) as D. rewrite Zmod_odd in D. assert (Hh : 0 <= L / 2) by (apply Z.div_pos; lia).
  assert (Hh2 : 2 * (L / 2) <= L) by (destruct (Z.odd L); lia).
  destruct (for_inv (fun k y' => block i 0 (2 * k) y y') pair (L / 2) y Hh) as (b & E & B).
  - apply block_nil.
  - intros k b Hk B. destruct (Hpair k b Hk) as (b' & E & B'); [apply B|]. exists b'. split; [exact E|].
    replace (2 * (k + 1)) with (2 * k + 2) by lia. eapply (block_app i 0 (2 * k) _ y b b'); try eassumption; lia.
  - rewrite E. cbn [bind]. destruct (Z.odd L) eqn:O.
    + destruct (Hlast b eq_refl) as (b' & E' & B'); [apply B|]. exists b'. split; [exact E'|].
      replace (block i 0 L y b') with (block i 0 (2 * (L / 2) + 1) y b') by (f_equal; lia).
      eapply (block_app i 0 (2 * (L / 2)) _ y b b'); try eassumption; lia.
    + exists b. split; [reflexivity|]. replace L with (2 * (L / 2)) at 1 by lia. exact B.
Qed.

(** The outputs and the values out of them give the buffer. *)
Lemma blocks_unique n y y1 y2 : 0 <= n -> blocks n y y1 -> blocks n y y2 -> y1 = y2.
Proof.
  intros Hn (L1 & V1 & U1) (L2 & V2 & U2).
  assert (C : forall q, 0 <= q -> cat y1 q = cat y2 q).
  { intros q Hq. destruct (Z.lt_ge_cases q (n * (p * L))) as [H|H]; [|rewrite U1, U2 by lia; reflexivity].
    assert (HpL : 0 < p * L) by nia.
    pose proof (Z.div_mod q (p * L) ltac:(lia)) as D1. pose proof (Z.mod_pos_bound q (p * L) HpL) as B1.
    pose proof (Z.div_mod (q mod (p * L)) L ltac:(lia)) as D2. pose proof (Z.mod_pos_bound (q mod (p * L)) L HL) as B2.
    assert (Eq : q = pos (q / (p * L)) (q mod (p * L) / L) ((q mod (p * L)) mod L)) by (unfold pos; rewrite (Z.mul_comm (q / _)), (Z.mul_comm (_ / L)); lia).
    assert (Hi : 0 <= q / (p * L) < n) by (split; [apply Z.div_pos; lia|apply Z.div_lt_upper_bound; lia]).
    assert (Hr : 0 <= q mod (p * L) / L < p) by (split; [apply Z.div_pos; lia|apply Z.div_lt_upper_bound; lia]).
    rewrite Eq, V1, V2 by assumption. reflexivity. }
  apply (nth_ext _ _ f0 f0); [unfold zlen in *; lia|]. intros m Hm.
  pose proof (Z.div_mod (Z.of_nat m) 2 ltac:(lia)) as D. pose proof (Z.mod_pos_bound (Z.of_nat m) 2 ltac:(lia)) as Bm.
  specialize (C (Z.of_nat m / 2) ltac:(apply Z.div_pos; lia)). unfold MdctProofs.cat, MdctModel.at_ in C. pose proof (f_equal fst C) as C1. pose proof (f_equal snd C) as C2. cbn [fst snd] in C1, C2.
  destruct (Z.eq_dec (Z.of_nat m mod 2) 0) as [Ev|Od].
  - replace (Z.to_nat (2 * (Z.of_nat m / 2))) with m in C1 by lia. exact C1.
  - replace (Z.to_nat (2 * (Z.of_nat m / 2) + 1)) with m in C2 by lia. exact C2.
Qed.
Lemma blocks_len n y y' : blocks n y y' -> zlen y' = zlen y.
Proof. intros H. apply H. Qed.
End Blocks.

Section Kernels.
Context {F : Type} (f0 : F) (add sub mul : F -> F -> F) (opp : F -> F) (fma fms : F -> F -> F -> F).
Notation cat := (cat f0).
Notation d1 := (d1 f0).
Notation d2 := (d2 f0).
Notation vadd := (vadd add).
Notation vsub := (vsub sub).
Notation vfma := (vfma fma).
Notation vfms := (vfms fms).

(** ** Outputs of the kernels *)
Definition neon5_out (K : @fft5_consts F) (x0 x1 x2 x3 x4 : @cpx F) (r : Z) : @cpx F :=
  let s14 := vadd x1 x4 in let s23 := vadd x2 x3 in
  let d14 := vrev64 (vsub x1 x4) in let d23 := vrev64 (vsub x2 x3) in
  let c1 := (k_cos1 K, k_cos1 K) in let c2 := (k_cos2 K, k_cos2 K) in
  let s1 := (opp (k_sin1 K), k_sin1 K) in let s2 := (opp (k_sin2 K), k_sin2 K) in
  let a := vfma (vfma x0 s14 c1) s23 c2 in let b := vfma (vfma x0 s14 c2) s23 c1 in
  if r =? 0 then vadd x0 (vadd s14 s23)
  else if r =? 1 then vfma (vfma a d14 s1) d23 s2
  else if r =? 2 then vfms (vfma b d14 s2) d23 s1
  else if r =? 3 then vfma (vfms b d14 s2) d23 s1
  else vfms (vfms a d14 s1) d23 s2.
Definition rot90 (x : @cpx F) : @cpx F := (opp (snd x), fst x).
Definition neon3_out (x0 x1 x2 : @cpx F) (w : @cpx F * @cpx F) : @cpx F :=
  bf3_y fma x0 x1 x2 (rot90 x1) (rot90 x2) (unzip w).
Definition neon2_out (x0 x1 w : @cpx F) (r : Z) : @cpx F :=
  let re := (fst w, fst w) in let im := (snd w, snd w) in
  if r =? 0 then vfma (vfma x0 x1 re) (rot90 x1) im else vfms (vfms x0 x1 re) (rot90 x1) im.

Ltac tests := repeat match goal with |- context [if ?c then _ else _] => first [replace c with true by lia|replace c with false by lia] end.

Lemma neon_fft_5_ok K x y h : 0 <= h -> let n := 2 * h in 10 * n <= zlen x -> 10 * n <= zlen y ->
  exists y', neon_fft_5 f0 add sub opp fma fms K x y n = Some y' /\
    blocks f0 5 1 (fun i r _ => neon5_out K (cat x i) (cat x (i + n)) (cat x (i + 2 * n)) (cat x (i + 3 * n)) (cat x (i + 4 * n)) r) n y y'.
Proof.
  intros Hh n Hx Hy. unfold neon_fft_5. replace ((n + 1) / 2) with h by (unfold n; Z.div_mod_to_equations; lia).
  set (val := fun i r (_ : Z) => _).
  match goal with |- context [for_ h ?f y] =>
    destruct (for_inv (fun k y' => blocks f0 5 1 val (2 * k) y y') f h y Hh) as (y' & E & B) end.
  - split; [reflexivity|]. split; [intros; lia|]. reflexivity.
  - intros k b Hk (Lb & Vb & Ub). cbv zeta. unfold vld1q. rewrite !rdc_ok by lia. cbn [bind].
    replace (2 * k + 0 * n) with (2 * k) by lia. replace (1 * n) with n by lia. replace (2 * k + n + 1) with (2 * k + 1 + n) by lia.
    replace (2 * k + 2 * n + 1) with (2 * k + 1 + 2 * n) by lia. replace (2 * k + 3 * n + 1) with (2 * k + 1 + 3 * n) by lia. replace (2 * k + 4 * n + 1) with (2 * k + 1 + 4 * n) by lia.
    assert (W : forall b i v, 0 <= i < 5 * n -> zlen b = zlen y -> exists b', vst1 b i v = Some b' /\ zlen b' = zlen y /\ forall j, 0 <= j -> cat b' j = if j =? i then v else cat b j).
    { intros c i v Hi Lc. destruct (wrc_ok f0 c i v ltac:(lia) ltac:(lia)) as (c' & E & L & V & _). exists c'. split; [exact E|]. split; [lia|exact V]. }
    repeat match goal with |- context [bind (vst1 ?c ?i ?v) _] =>
      let c' := fresh "b" in let E := fresh "E" in let L := fresh "L" in let V := fresh "V" in
      destruct (W c i v ltac:(lia) ltac:(assumption)) as (c' & E & L & V); rewrite E; cbn [bind]; clear E end.
    match goal with |- context [vst1 ?c ?i ?v = _] => destruct (W c i v ltac:(lia) ltac:(assumption)) as (b' & E & L' & V') end.
    exists b'. split; [exact E|]. split; [exact L'|].
    assert (All : forall q, 0 <= q -> (q < 10 * k \/ 10 * k + 10 <= q -> cat b' q = cat b q)).
    { intros q Hq Hq'. rewrite V' by lia. repeat match goal with V : forall j, 0 <= j -> cat ?c j = _ |- context [cat ?c q] => rewrite V by lia end. tests. reflexivity. }
    split.
    + intros i r j Hi Hr Hj. assert (j = 0) as -> by lia. unfold pos. destruct (Z.lt_ge_cases i (2 * k)) as [C|C].
      * rewrite All by lia. specialize (Vb i r 0 ltac:(lia) Hr ltac:(lia)). unfold pos in Vb. exact Vb.
      * rewrite V' by lia. repeat match goal with V : forall j, 0 <= j -> cat ?c j = _ |- context [cat ?c (_ + _)] => rewrite V by lia end.
        clear - Hr Hi C. assert (Ci : i = 2 * k \/ i = 2 * k + 1) by lia. assert (Cr : r = 0 \/ r = 1 \/ r = 2 \/ r = 3 \/ r = 4) by lia.
        destruct Ci as [-> | ->]; destruct Cr as [->|[->|[->|[->| ->]]]]; tests; reflexivity.
    + intros q Hq. rewrite All by lia. apply Ub. lia.
  - exists y'. split; [exact E|exact B].
Qed.

(** Two consecutive complex numbers. *)
Lemma vst1q_ok b i v : 0 <= i -> 2 * i + 3 < zlen b -> exists b', vst1q b i v = Some b' /\ zlen b' = zlen b /\
  forall j, 0 <= j -> cat b' j = if j =? i then fst v else if j =? i + 1 then snd v else cat b j.
Proof.
  intros H1 H2. unfold vst1q. destruct (wrc_ok f0 b i (fst v) ltac:(lia) ltac:(lia)) as (b1 & E1 & L1 & V1 & _). rewrite E1. cbn [bind].
  destruct (wrc_ok f0 b1 (i + 1) (snd v) ltac:(lia) ltac:(lia)) as (b2 & E2 & L2 & V2 & _). exists b2. split; [exact E2|]. split; [lia|].
  intros j Hj. rewrite V2, V1 by lia. destruct (j =? i) eqn:E; [replace (j =? i + 1) with false by lia|]; reflexivity.
Qed.
Lemma vld1q_ok b i : 0 <= i -> 2 * i + 3 < zlen b -> vld1q f0 b i = Some (cat b i, cat b (i + 1)).
Proof. intros H1 H2. unfold vld1q. rewrite !rdc_ok by lia. reflexivity. Qed.
Lemma tld2q_ok t i : 0 <= i -> i + 1 < zlen t -> tld2q t i =
  Some ((fst (unzip (znth t i d2)), fst (unzip (znth t (i + 1) d2))), (snd (unzip (znth t i d2)), snd (unzip (znth t (i + 1) d2)))).
Proof. intros H1 H2. unfold tld2q. rewrite !(rdt_ok _ _ d2) by lia. reflexivity. Qed.

Lemma neon_fft_bf3_ok tw x y n L : 0 <= n -> 0 < L -> t_n3 tw = L -> zlen (t_t3 tw) = 3 * L -> 2 * (n * (3 * L)) <= zlen x -> 2 * (n * (3 * L)) <= zlen y ->
  exists y', neon_fft_bf3 f0 opp fma tw x y n = Some y' /\
    blocks f0 3 L (fun i r j => neon3_out (cat x (i * L + j)) (cat x ((i + n) * L + j)) (cat x ((i + 2 * n) * L + j)) (znth (t_t3 tw) (r * L + j) d2)) n y y'.
Proof.
  intros Hn HL En Et Hx Hy. unfold neon_fft_bf3. rewrite En. cbv zeta.
  set (val := fun i r j => _).
  apply (blocks_rows f0 3 L val HL ltac:(lia)); [exact Hn|]. intros i y1 Hi Ly1. cbv beta.
  pose proof (Z.div_mod L 2 ltac:(lia)) as D. rewrite Zmod_odd in D.
  assert (Hin : (i + 1) * L <= n * L) by (apply Z.mul_le_mono_nonneg_r; lia).
  assert (Hi0 : 0 <= i * L) by (apply Z.mul_nonneg_nonneg; lia).
  apply row_pairs; [exact HL|lia|lia| |].
  - intros j b Hj Lb. assert (Hj2 : 2 * j + 2 <= L) by (destruct (Z.odd L); lia).
    rewrite !vld1q_ok by lia. cbn [bind]. rewrite !tld2q_ok by lia. cbn [bind].
    match goal with |- context [vst1q b ?q ?v] => destruct (vst1q_ok b q v ltac:(lia) ltac:(lia)) as (b1 & E1 & L1 & V1) end. rewrite E1. cbn [bind].
    match goal with |- context [vst1q b1 ?q ?v] => destruct (vst1q_ok b1 q v ltac:(lia) ltac:(lia)) as (b2 & E2 & L2 & V2) end. rewrite E2. cbn [bind].
    match goal with |- context [vst1q b2 ?q ?v] => destruct (vst1q_ok b2 q v ltac:(lia) ltac:(lia)) as (b3 & E3 & L3 & V3) end. exists b3. split; [exact E3|].
    split; [lia|]. split.
    + intros r k Hr Hk. unfold pos. assert (Cr : r = 0 \/ r = 1 \/ r = 2) by lia.
      assert (Hp : 0 <= i * (3 * L) + r * L + k) by (destruct Cr as [->|[->| ->]]; lia). rewrite V3, V2, V1 by exact Hp.
      assert (Ck : k = 2 * j \/ k = 2 * j + 1) by lia.
      replace (n * L + (i * L + 2 * j)) with ((i + n) * L + 2 * j) by ring. replace (n * L + n * L + (i * L + 2 * j)) with ((i + 2 * n) * L + 2 * j) by ring.
      rewrite <- !Z.add_assoc. replace (L + (L + 2 * j)) with (2 * L + 2 * j) by ring. replace (L + (L + (2 * j + 1))) with (2 * L + (2 * j + 1)) by ring.
      destruct Ck as [-> | ->]; destruct Cr as [->|[->| ->]]; tests; unfold val;
        rewrite ?Z.mul_0_l, ?Z.mul_1_l, ?Z.add_0_l, <- ?Z.add_assoc; reflexivity.
    + intros q Hq Ne. pose proof (fun r => Ne r (2 * j)) as N0. pose proof (fun r => Ne r (2 * j + 1)) as N1. unfold pos in N0, N1.
      pose proof (N0 0). pose proof (N0 1). pose proof (N0 2). pose proof (N1 0). pose proof (N1 1). pose proof (N1 2).
      rewrite V3, V2, V1 by lia. tests. reflexivity.
  - intros b Od Lb. set (j := L / 2) in *. rewrite Od in D. unfold vld1, vst1, tld2. rewrite !rdc_ok by lia. cbn [bind]. rewrite !(rdt_ok _ _ d2) by lia. cbn [bind].
    match goal with |- context [wrc b ?q ?v] => destruct (wrc_ok f0 b q v ltac:(lia) ltac:(lia)) as (b1 & E1 & L1 & V1 & _) end. rewrite E1. cbn [bind].
    match goal with |- context [wrc b1 ?q ?v] => destruct (wrc_ok f0 b1 q v ltac:(lia) ltac:(lia)) as (b2 & E2 & L2 & V2 & _) end. rewrite E2. cbn [bind].
    match goal with |- context [wrc b2 ?q ?v] => destruct (wrc_ok f0 b2 q v ltac:(lia) ltac:(lia)) as (b3 & E3 & L3 & V3 & _) end. exists b3. split; [exact E3|].
    split; [lia|]. split.
    + intros r k Hr Hk. unfold pos. assert (Cr : r = 0 \/ r = 1 \/ r = 2) by lia.
      assert (Hp : 0 <= i * (3 * L) + r * L + k) by (destruct Cr as [->|[->| ->]]; lia). rewrite V3, V2, V1 by exact Hp.
      assert (k = 2 * j) as -> by lia.
      replace (n * L + (i * L + 2 * j)) with ((i + n) * L + 2 * j) by ring. replace (n * L + n * L + (i * L + 2 * j)) with ((i + 2 * n) * L + 2 * j) by ring.
      rewrite <- !Z.add_assoc. replace (L + (L + 2 * j)) with (2 * L + 2 * j) by ring.
      destruct Cr as [->|[->| ->]]; tests; unfold val;
        rewrite ?Z.mul_0_l, ?Z.mul_1_l, ?Z.add_0_l; reflexivity.
    + intros q Hq Ne. pose proof (fun r => Ne r (2 * j)) as N0. unfold pos in N0.
      pose proof (N0 0). pose proof (N0 1). pose proof (N0 2).
      rewrite V3, V2, V1 by lia. tests. reflexivity.
Qed.

Lemma neon_fft_bf2_ok tw x y n L : 0 <= n -> 0 < L -> t_n2 tw = L -> zlen (t_t2 tw) = L -> 2 * (n * (2 * L)) <= zlen x -> 2 * (n * (2 * L)) <= zlen y ->
  exists y', neon_fft_bf2 f0 opp fma fms tw x y n = Some y' /\
    blocks f0 2 L (fun i r j => neon2_out (cat x (i * L + j)) (cat x ((i + n) * L + j)) (znth (t_t2 tw) j d1) r) n y y'.
Proof.
  intros Hn HL En Et Hx Hy. unfold neon_fft_bf2. rewrite En. cbv zeta.
  set (val := fun i r j => _).
  apply (blocks_rows f0 2 L val HL ltac:(lia)); [exact Hn|]. intros i y1 Hi Ly1. cbv beta.
  pose proof (Z.div_mod L 2 ltac:(lia)) as D. rewrite Zmod_odd in D.
  assert (Hin : (i + 1) * L <= n * L) by (apply Z.mul_le_mono_nonneg_r; lia).
  assert (Hi0 : 0 <= i * L) by (apply Z.mul_nonneg_nonneg; lia).
  apply row_pairs; [exact HL|lia|lia| |].
  - intros j b Hj Lb. assert (Hj2 : 2 * j + 2 <= L) by (destruct (Z.odd L); lia).
    rewrite !vld1q_ok by lia. cbn [bind]. unfold tld1q. rewrite !(rdt_ok _ _ d1) by lia. cbn [bind].
    match goal with |- context [vst1q b ?q ?v] => destruct (vst1q_ok b q v ltac:(lia) ltac:(lia)) as (b1 & E1 & L1 & V1) end. rewrite E1. cbn [bind].
    match goal with |- context [vst1q b1 ?q ?v] => destruct (vst1q_ok b1 q v ltac:(lia) ltac:(lia)) as (b2 & E2 & L2 & V2) end. exists b2. split; [exact E2|].
    split; [lia|]. split.
    + intros r k Hr Hk. unfold pos. assert (Cr : r = 0 \/ r = 1) by lia.
      assert (Hp : 0 <= i * (2 * L) + r * L + k) by (destruct Cr as [->| ->]; lia). rewrite V2, V1 by exact Hp.
      assert (Ck : k = 2 * j \/ k = 2 * j + 1) by lia.
      replace (n * L + (i * L + 2 * j)) with ((i + n) * L + 2 * j) by ring.
      rewrite <- !Z.add_assoc.
      destruct Ck as [-> | ->]; destruct Cr as [->| ->]; tests; reflexivity.
    + intros q Hq Ne. pose proof (fun r => Ne r (2 * j)) as N0. pose proof (fun r => Ne r (2 * j + 1)) as N1. unfold pos in N0, N1.
      pose proof (N0 0). pose proof (N0 1). pose proof (N1 0). pose proof (N1 1).
      rewrite V2, V1 by lia. tests. reflexivity.
  - intros b Od Lb. set (j := L / 2) in *. rewrite Od in D. unfold vld1, vst1, tld1. rewrite !rdc_ok by lia. cbn [bind]. rewrite !(rdt_ok _ _ d1) by lia. cbn [bind].
    match goal with |- context [wrc b ?q ?v] => destruct (wrc_ok f0 b q v ltac:(lia) ltac:(lia)) as (b1 & E1 & L1 & V1 & _) end. rewrite E1. cbn [bind].
    match goal with |- context [wrc b1 ?q ?v] => destruct (wrc_ok f0 b1 q v ltac:(lia) ltac:(lia)) as (b2 & E2 & L2 & V2 & _) end. exists b2. split; [exact E2|].
    split; [lia|]. split.
    + intros r k Hr Hk. unfold pos. assert (Cr : r = 0 \/ r = 1) by lia.
      assert (Hp : 0 <= i * (2 * L) + r * L + k) by (destruct Cr as [->| ->]; lia). rewrite V2, V1 by exact Hp.
      assert (k = 2 * j) as -> by lia.
      replace (n * L + (i * L + 2 * j)) with ((i + n) * L + 2 * j) by ring.
      rewrite <- !Z.add_assoc. destruct Cr as [->| ->]; tests; reflexivity.
    + intros q Hq Ne. pose proof (fun r => Ne r (2 * j)) as N0. unfold pos in N0.
      pose proof (N0 0). pose proof (N0 1).
      rewrite V2, V1 by lia. tests. reflexivity.
Qed.

(** ** Portable kernels, with the values out of the outputs *)
Lemma frame_loop N n body (y : list F) : 0 <= n ->
  (forall i b, 0 <= i < n -> zlen b = zlen y -> exists b', body i b = Some b' /\ zlen b' = zlen y /\ forall q, N <= q -> cat b' q = cat b q) ->
  exists y', for_ n body y = Some y' /\ zlen y' = zlen y /\ forall q, N <= q -> cat y' q = cat y q.
Proof.
  intros Hn Hb. apply (for_inv (fun _ y' => zlen y' = zlen y /\ forall q, N <= q -> cat y' q = cat y q)); [exact Hn|auto|].
  intros j b Hj [Lb Ub]. destruct (Hb j b Hj Lb) as (b' & E & L' & U'). exists b'. split; [exact E|]. split; [exact L'|]. intros q Hq. rewrite U', Ub by exact Hq. reflexivity.
Qed.
Lemma wrc_frame N (y b : list F) i v : 0 <= i < N -> 2 * N <= zlen y -> zlen b = zlen y ->
  exists b', wrc b i v = Some b' /\ zlen b' = zlen y /\ forall q, N <= q -> cat b' q = cat b q.
Proof.
  intros Hi Hy Lb. destruct (wrc_ok f0 b i v ltac:(lia) ltac:(lia)) as (b' & E & L & V & _). exists b'. split; [exact E|]. split; [lia|].
  intros q Hq. rewrite V by lia. replace (q =? i) with false by lia. reflexivity.
Qed.
Lemma bind_frame N (y b : list F) (m : option (list F)) f :
  (exists b', m = Some b' /\ zlen b' = zlen y /\ forall q, N <= q -> cat b' q = cat b q) ->
  (forall c, zlen c = zlen y -> exists b', f c = Some b' /\ zlen b' = zlen y /\ forall q, N <= q -> cat b' q = cat c q) ->
  exists b', bind m f = Some b' /\ zlen b' = zlen y /\ forall q, N <= q -> cat b' q = cat b q.
Proof.
  intros (b1 & -> & L1 & U1) H. cbn [bind]. destruct (H b1 L1) as (b2 & E2 & L2 & U2). exists b2. split; [exact E2|]. split; [exact L2|]. intros q Hq. rewrite U2, U1 by exact Hq. reflexivity.
Qed.

Lemma fft_5_blocks K x y n : 0 <= n -> 10 * n <= zlen x -> 10 * n <= zlen y ->
  exists y', fft_5 f0 add sub mul K x y n = Some y' /\
    blocks f0 5 1 (fun i r _ => fft5_out add sub mul K (cat x i) (cat x (i + n)) (cat x (i + 2 * n)) (cat x (i + 3 * n)) (cat x (i + 4 * n)) r) n y y'.
Proof.
  intros Hn Hx Hy. destruct (fft_5_ok f0 add sub mul K x y n Hn Hx Hy) as (y' & E & L & V). exists y'. split; [exact E|].
  assert (W : exists y2, fft_5 f0 add sub mul K x y n = Some y2 /\ zlen y2 = zlen y /\ forall q, 5 * n <= q -> cat y2 q = cat y q).
  { unfold fft_5. apply frame_loop; [exact Hn|]. intros i b Hi Lb. rewrite !rdc_ok by lia. cbn [bind]. cbv zeta.
    repeat (apply bind_frame; [apply wrc_frame; lia|]; clear b Lb; intros b Lb). apply wrc_frame; lia. }
  destruct W as (y2 & E2 & _ & U). rewrite E in E2. injection E2 as <-. split; [exact L|]. split.
  - intros i r j Hi Hr Hj. replace (pos 5 1 i r j) with (5 * i + r) by (unfold pos; lia). apply V; assumption.
  - intros q Hq. apply U. lia.
Qed.
Lemma fft_bf3_blocks tw x y n L : 0 <= n -> 0 < L -> t_n3 tw = L -> zlen (t_t3 tw) = 3 * L -> 2 * (n * (3 * L)) <= zlen x -> 2 * (n * (3 * L)) <= zlen y ->
  exists y', fft_bf3 f0 add sub mul tw x y n = Some y' /\
    blocks f0 3 L (fun i r j => bf3_out add sub mul (cat x (i * L + j)) (cat x ((i + n) * L + j)) (cat x ((i + 2 * n) * L + j)) (znth (t_t3 tw) (r * L + j) d2)) n y y'.
Proof.
  intros Hn HL En Et Hx Hy. destruct (fft_bf3_ok f0 add sub mul tw x y n L Hn HL En Et Hx Hy) as (y' & E & Ly & V). exists y'. split; [exact E|].
  assert (W : exists y2, fft_bf3 f0 add sub mul tw x y n = Some y2 /\ zlen y2 = zlen y /\ forall q, n * (3 * L) <= q -> cat y2 q = cat y q).
  { unfold fft_bf3. rewrite En. apply frame_loop; [exact Hn|]. intros i b Hi Lb.
    assert (Hin : (i + 1) * L <= n * L) by (apply Z.mul_le_mono_nonneg_r; lia). assert (Hi0 : 0 <= i * L) by (apply Z.mul_nonneg_nonneg; lia).
    rewrite <- Lb. apply frame_loop; [lia|]. intros j c Hj Lc. rewrite !rdc_ok by lia. cbn [bind]. rewrite !(rdt_ok _ _ d2) by lia. cbn [bind].
    repeat (apply bind_frame; [apply wrc_frame; lia|]; clear c Lc; intros c Lc). apply wrc_frame; lia. }
  destruct W as (y2 & E2 & _ & U). rewrite E in E2. injection E2 as <-. split; [exact Ly|]. split; [exact V|exact U].
Qed.
Lemma fft_bf2_blocks tw x y n L : 0 <= n -> 0 < L -> t_n2 tw = L -> zlen (t_t2 tw) = L -> 2 * (n * (2 * L)) <= zlen x -> 2 * (n * (2 * L)) <= zlen y ->
  exists y', fft_bf2 f0 add sub mul tw x y n = Some y' /\
    blocks f0 2 L (fun i r j => bf2_out add sub mul (cat x (i * L + j)) (cat x ((i + n) * L + j)) (znth (t_t2 tw) j d1) r) n y y'.
Proof.
  intros Hn HL En Et Hx Hy. destruct (fft_bf2_ok f0 add sub mul tw x y n L Hn HL En Et Hx Hy) as (y' & E & Ly & V). exists y'. split; [exact E|].
  assert (W : exists y2, fft_bf2 f0 add sub mul tw x y n = Some y2 /\ zlen y2 = zlen y /\ forall q, n * (2 * L) <= q -> cat y2 q = cat y q).
  { unfold fft_bf2. rewrite En. apply frame_loop; [exact Hn|]. intros i b Hi Lb.
    assert (Hin : (i + 1) * L <= n * L) by (apply Z.mul_le_mono_nonneg_r; lia). assert (Hi0 : 0 <= i * L) by (apply Z.mul_nonneg_nonneg; lia).
    rewrite <- Lb. apply frame_loop; [lia|]. intros j c Hj Lc. rewrite !rdc_ok by lia. cbn [bind]. rewrite !(rdt_ok _ _ d1) by lia. cbn [bind].
    repeat (apply bind_frame; [apply wrc_frame; lia|]; clear c Lc; intros c Lc). apply wrc_frame; lia. }
  destruct W as (y2 & E2 & _ & U). rewrite E in E2. injection E2 as <-. split; [exact Ly|]. split; [exact V|exact U].
Qed.
End Kernels.

(** ** The FFT, on two sets of kernels with the same results *)
Lemma while_inv2 {S} (P : Z -> S -> Prop) (c : S -> bool) f f' k : 0 <= k ->
  (forall j s, 0 <= j <= k -> P j s -> c s = (j <? k)) ->
  (forall j s, 0 <= j < k -> P j s -> exists s', f s = Some s' /\ f' s = Some s' /\ P (j + 1) s') ->
  forall fuel s, P 0 s -> k <= Z.of_nat fuel -> exists s', while fuel c f s = Some s' /\ while fuel c f' s = Some s' /\ P k s'.
Proof.
  intros Hk Hc Hf fuel s H0 Hfu.
  assert (G : forall fu j s, 0 <= j <= k -> P j s -> k - j <= Z.of_nat fu -> exists s', while fu c f s = Some s' /\ while fu c f' s = Some s' /\ P k s').
  { induction fu as [|fu IH]; intros j t Hj Ht Hl; cbn [while]; rewrite (Hc j t Hj Ht).
    - assert (j = k) as -> by lia. rewrite Z.ltb_irrefl. exists t. auto.
    - destruct (j <? k) eqn:E.
      + destruct (Hf j t ltac:(lia) Ht) as (t' & E1 & E2 & H'). rewrite E1, E2. cbn [bind]. apply (IH (j + 1)); [lia|exact H'|lia].
      + assert (j = k) as -> by lia. exists t. auto. }
  apply (G fuel 0 s); [lia|exact H0|lia].
Qed.

Section With.
Context {F : Type}.
Variables (k5 k5' : @fft5_consts F -> list F -> list F -> Z -> option (list F))
  (k3 k3' : @bf3_twiddles F -> list F -> list F -> Z -> option (list F))
  (k2 k2' : @bf2_twiddles F -> list F -> list F -> Z -> option (list F)).
Variables (T : @fft_tables F) (a b : Z) (y0 y1 : list F).
Let P := fft_size a b.
Hypothesis Ha : 0 <= a <= 2.
Hypothesis Hb : 1 <= b <= 5.
Hypothesis Sh : shape_fft T a b.
Hypothesis L0 : 2 * P <= zlen y0.
Hypothesis L1 : 2 * P <= zlen y1.
(** [St n L y]: the buffer [y] holds the values after the stages of product [L], [n] remaining. *)
Variable St : Z -> Z -> list F -> Prop.
Hypothesis K5 : forall h, 0 <= h -> 2 * h * 5 = P -> 10 * (2 * h) <= zlen y0 -> 10 * (2 * h) <= zlen y1 ->
  exists y', k5 (ft_5 T) y0 y1 (2 * h) = Some y' /\ k5' (ft_5 T) y0 y1 (2 * h) = Some y' /\ zlen y' = zlen y1 /\ St (2 * h) 5 y'.
Hypothesis K3 : forall j tw x y n L, 0 <= j < a -> rdt (ft_bf3 T) j = Some tw -> L = 5 * 3 ^ j -> 0 < n -> n * (3 * L) = P ->
  0 < L -> t_n3 tw = L -> zlen (t_t3 tw) = 3 * L -> 2 * (n * (3 * L)) <= zlen x -> 2 * (n * (3 * L)) <= zlen y -> St (3 * n) L x ->
  exists y', k3 tw x y n = Some y' /\ k3' tw x y n = Some y' /\ zlen y' = zlen y /\ St n (3 * L) y'.
Hypothesis K2 : forall j row tw x y n L, 0 <= j < b -> rdt (ft_bf2 T) j = Some row -> rdt row a = Some tw -> L = 5 * 3 ^ a * 2 ^ j -> 0 < n -> n * (2 * L) = P ->
  0 < L -> t_n2 tw = L -> zlen (t_t2 tw) = L -> 2 * (n * (2 * L)) <= zlen x -> 2 * (n * (2 * L)) <= zlen y -> St (2 * n) L x ->
  exists y', k2 tw x y n = Some y' /\ k2' tw x y n = Some y' /\ zlen y' = zlen y /\ St n (2 * L) y'.

Lemma fft_with_same : exists is1 cur other, fft_with k5 k3 k2 T P y0 y1 = Some (is1, (cur, other)) /\ fft_with k5' k3' k2' T P y0 y1 = Some (is1, (cur, other)) /\ St 1 P cur /\
  zlen (if is1 : bool then cur else other) = zlen y1 /\ zlen (if is1 then other else cur) = zlen y0.
Proof.
  assert (P3 : forall k, 0 <= k -> 0 < 3 ^ k) by (clear; intros; apply Z.pow_pos_nonneg; [reflexivity|assumption]).
  assert (P2 : forall k, 0 <= k -> 0 < 2 ^ k) by (clear; intros; apply Z.pow_pos_nonneg; [reflexivity|assumption]).
  assert (Q3 : forall k, 0 <= k -> 3 ^ (k + 1) = 3 * 3 ^ k) by (clear; intros; rewrite Z.pow_add_r by lia; apply Z.mul_comm).
  assert (Q2 : forall k, 0 <= k -> 2 ^ (k + 1) = 2 * 2 ^ k) by (clear; intros; rewrite Z.pow_add_r by lia; apply Z.mul_comm).
  destruct Sh as [S3 S2]. unfold fft_with.
  assert (EP : P = 5 * (3 ^ a * 2 ^ b)) by (unfold P, fft_size; ring).
  replace (P / 5) with (3 ^ a * 2 ^ b) by (rewrite EP, (Z.mul_comm 5); symmetry; apply Z.div_mul; discriminate).
  pose proof (P3 a ltac:(lia)) as Pa. pose proof (P2 b ltac:(lia)) as Pb.
  assert (Pab : 0 < 3 ^ a * 2 ^ b) by nia.
  assert (Ev : 3 ^ a * 2 ^ b = 2 * (3 ^ a * 2 ^ (b - 1))) by (replace b with (b - 1 + 1) at 1 by lia; rewrite Q2 by lia; ring).
  assert (E5 : exists y5, k5 (ft_5 T) y0 y1 (3 ^ a * 2 ^ b) = Some y5 /\ k5' (ft_5 T) y0 y1 (3 ^ a * 2 ^ b) = Some y5 /\ zlen y5 = zlen y1 /\ St (3 ^ a * 2 ^ b) 5 y5).
  { rewrite Ev. apply K5; lia. }
  destruct E5 as (y5 & E5 & E5' & L5 & I5). rewrite E5, E5'. cbn [bind].
  match goal with |- exists _ _ _, bind (while ?fu ?c ?f ?st) _ = _ /\ bind (while _ _ ?f' _) _ = _ /\ _ =>
    destruct (while_inv2 (fun j '(n, i3, (is1, (cur, other))) => n = 3 ^ (a - j) * 2 ^ b /\ i3 = j /\ St n (5 * 3 ^ j) cur /\
      zlen (if is1 : bool then cur else other) = zlen y1 /\ zlen (if is1 then other else cur) = zlen y0) c f f' a ltac:(lia)) with (fuel := fu) (s := st) as (s & E & E' & V) end.
  - intros j [[n i3] [is1 [cur other]]] Hj (-> & _). rewrite pow2_cond by lia. lia.
  - intros j [[n i3] [is1 [cur other]]] Hj (-> & -> & I & La & Lb).
    destruct (S3 j Hj) as (tw & Et & Sn & Sl). rewrite Et. cbn [bind].
    set (n := 3 ^ (a - (j + 1)) * 2 ^ b). assert (En : 3 ^ (a - j) * 2 ^ b = 3 * n) by (unfold n; replace (a - j) with (a - (j + 1) + 1) by lia; rewrite Q3 by lia; ring).
    rewrite En in *. replace (3 * n / 3) with n by (rewrite Z.mul_comm, Z.div_mul; lia).
    pose proof (P3 j ltac:(lia)) as Pj. assert (Hn : 0 < n) by (pose proof (P3 (a - (j + 1)) ltac:(lia)); unfold n; nia).
    assert (EL : n * (3 * (5 * 3 ^ j)) = P).
    { unfold n. rewrite EP. replace (3 ^ a) with (3 ^ (a - (j + 1)) * 3 ^ (j + 1)) by (rewrite <- Z.pow_add_r by lia; f_equal; lia). rewrite Q3 by lia. ring. }
    assert (Lc : 2 * P <= zlen cur /\ 2 * P <= zlen other) by (destruct is1; lia).
    destruct (K3 j tw cur other n (5 * 3 ^ j) Hj Et eq_refl Hn EL ltac:(lia) Sn Sl ltac:(lia) ltac:(lia) I) as (c' & E & E' & Lc' & I').
    rewrite E, E'. cbn [bind]. eexists. split; [reflexivity|]. split; [reflexivity|]. cbn beta iota. split; [reflexivity|]. split; [reflexivity|].
    split; [replace (5 * 3 ^ (j + 1)) with (3 * (5 * 3 ^ j)) by (rewrite Q3 by lia; ring); exact I'|]. destruct is1; cbn [negb]; lia.
  - cbn beta iota. rewrite Z.sub_0_r. split; [reflexivity|]. split; [reflexivity|]. split; [exact I5|]. auto.
  - assert (a < 3 ^ a) by (apply Z.pow_gt_lin_r; lia). nia.
  - rewrite E, E'. cbn [bind]. destruct s as [[n i3] [is1 [cur other]]]. destruct V as (-> & -> & I & La & Lb).
    rewrite Z.sub_diag in *. change (3 ^ 0) with 1 in *. rewrite Z.mul_1_l in *.
    match goal with |- exists _ _ _, bind (while ?fu ?c ?f ?st) _ = _ /\ bind (while _ _ ?f' _) _ = _ /\ _ =>
      destruct (while_inv2 (fun j '(n, i2, (is1, (cur, other))) => n = 2 ^ (b - j) /\ i2 = j /\ St n (5 * 3 ^ a * 2 ^ j) cur /\
        zlen (if is1 : bool then cur else other) = zlen y1 /\ zlen (if is1 then other else cur) = zlen y0) c f f' b ltac:(lia)) with (fuel := fu) (s := st) as (s & G & G' & V) end.
    + intros j [[n i2] [is [c o]]] Hj (-> & _). destruct (Z.eq_dec j b) as [->|N].
      * rewrite Z.sub_diag. change (2 ^ 0) with 1. lia.
      * assert (1 < 2 ^ (b - j)) by (apply Z.pow_gt_1; lia). lia.
    + intros j [[n i2] [is [c o]]] Hj (-> & -> & Ij & Lc & Lo).
      destruct (S2 j Hj) as (row & tw & Er & Et & Sn & Sl). rewrite Er. cbn [bind]. rewrite Et. cbn [bind].
      set (n := 2 ^ (b - (j + 1))). assert (En : 2 ^ (b - j) = 2 * n) by (unfold n; replace (b - j) with (b - (j + 1) + 1) by lia; rewrite Q2 by lia; ring).
      rewrite En in *. replace (2 * n / 2) with n by (rewrite Z.mul_comm, Z.div_mul; lia).
      pose proof (P2 j ltac:(lia)) as Pj. assert (Hn : 0 < n) by (apply P2; lia).
      assert (EL : n * (2 * (5 * 3 ^ a * 2 ^ j)) = P).
      { unfold n. rewrite EP. replace (2 ^ b) with (2 ^ (b - (j + 1)) * 2 ^ (j + 1)) by (rewrite <- Z.pow_add_r by lia; f_equal; lia). rewrite Q2 by lia. ring. }
      assert (Lcc : 2 * P <= zlen c /\ 2 * P <= zlen o) by (destruct is; lia).
      destruct (K2 j row tw c o n (5 * 3 ^ a * 2 ^ j) Hj Er Et eq_refl Hn EL ltac:(nia) Sn Sl ltac:(lia) ltac:(lia) Ij) as (c' & Ec & Ec' & Lc' & I').
      rewrite Ec, Ec'. cbn [bind]. eexists. split; [reflexivity|]. split; [reflexivity|]. cbn beta iota. split; [reflexivity|]. split; [reflexivity|].
      split; [replace (5 * 3 ^ a * 2 ^ (j + 1)) with (2 * (5 * 3 ^ a * 2 ^ j)) by (rewrite Q2 by lia; ring); exact I'|]. destruct is; cbn [negb]; lia.
    + cbn beta iota. rewrite Z.sub_0_r. split; [reflexivity|]. split; [reflexivity|]. split; [change (2 ^ 0) with 1; rewrite Z.mul_1_r; exact I|]. auto.
    + assert (b < 2 ^ b) by (apply Z.pow_gt_lin_r; lia). lia.
    + rewrite G, G'. cbn [bind]. destruct s as [[n i2] [is [c o]]]. destruct V as (-> & -> & Ij & Lc & Lo). exists is, c, o.
      rewrite Z.sub_diag in Ij. split; [reflexivity|]. split; [reflexivity|]. split; [exact Ij|]. split; assumption.
Qed.
End With.

Section NeonFft.
Context {F : Type} (f0 : F) (add sub mul : F -> F -> F) (opp : F -> F) (fma fms : F -> F -> F -> F).
Notation cat := (cat f0).
Notation neon_fft := (neon_fft f0 add sub opp fma fms).

(** Any arithmetic: every access is in its buffer. *)
Lemma neon_fft_safe T a b y0 y1 : 0 <= a <= 2 -> 1 <= b <= 5 -> shape_fft T a b -> 2 * fft_size a b <= zlen y0 -> 2 * fft_size a b <= zlen y1 ->
  exists is1 cur other, neon_fft T (fft_size a b) y0 y1 = Some (is1, (cur, other)) /\
  zlen (if is1 : bool then cur else other) = zlen y1 /\ zlen (if is1 then other else cur) = zlen y0.
Proof.
  intros Ha Hb Sh L0 L1.
  destruct (fft_with_same (neon_fft_5 f0 add sub opp fma fms) (neon_fft_5 f0 add sub opp fma fms) (neon_fft_bf3 f0 opp fma) (neon_fft_bf3 f0 opp fma)
    (neon_fft_bf2 f0 opp fma fms) (neon_fft_bf2 f0 opp fma fms) T a b y0 y1 Ha Hb Sh L0 L1 (fun _ _ _ => True)) as (i & c & o & E & _ & _ & A & B).
  - intros h Hh _ H0 H1. destruct (neon_fft_5_ok f0 add sub mul opp fma fms (ft_5 T) y0 y1 h Hh H0 H1) as (y' & E & Bl). exists y'. split; [exact E|]. split; [exact E|]. split; [apply Bl|exact I].
  - intros j tw x y n L _ _ _ Hn _ H2 H3 H4 H5 H6 _. assert (H1 : 0 <= n) by lia. destruct (neon_fft_bf3_ok f0 opp fma tw x y n L H1 H2 H3 H4 H5 H6) as (y' & E & Bl). exists y'. split; [exact E|]. split; [exact E|]. split; [apply Bl|exact I].
  - intros j row tw x y n L _ _ _ _ Hn _ H2 H3 H4 H5 H6 _. assert (H1 : 0 <= n) by lia. destruct (neon_fft_bf2_ok f0 opp fma fms tw x y n L H1 H2 H3 H4 H5 H6) as (y' & E & Bl). exists y'. split; [exact E|]. split; [exact E|]. split; [apply Bl|exact I].
  - exists i, c, o. auto.
Qed.

(** Exact arithmetic: the portable results. *)
Variable f1 : F.
Hypothesis RT : ring_theory f0 f1 add mul sub opp (@eq F).
Hypothesis Hfma : forall a b c, fma a b c = add a (mul b c).
Hypothesis Hfms : forall a b c, fms a b c = sub a (mul b c).
Add Ring Fring : RT.

Lemma neon5_out_eq K x0 x1 x2 x3 x4 r : neon5_out add sub opp fma fms K x0 x1 x2 x3 x4 r = fft5_out add sub mul K x0 x1 x2 x3 x4 r.
Proof.
  unfold neon5_out, fft5_out, vadd, vsub, vfma, vfms, vrev64. cbn [fst snd]. rewrite !Hfma, !Hfms.
  destruct (r =? 0); [f_equal; ring|]. destruct (r =? 1); [f_equal; ring|]. destruct (r =? 2); [f_equal; ring|]. destruct (r =? 3); f_equal; ring.
Qed.
Lemma neon3_out_eq x0 x1 x2 w : neon3_out opp fma x0 x1 x2 w = bf3_out add sub mul x0 x1 x2 w.
Proof. destruct w as [wa wb]. unfold neon3_out, bf3_out, bf3_y, unzip, rot90, vfma, vtrn1, vtrn2. cbn [fst snd]. rewrite !Hfma. f_equal; ring. Qed.
Lemma neon2_out_eq x0 x1 w r : neon2_out opp fma fms x0 x1 w r = bf2_out add sub mul x0 x1 w r.
Proof. unfold neon2_out, bf2_out, rot90, vfma, vfms. cbn [fst snd]. rewrite !Hfma, !Hfms. destruct (r =? 0); f_equal; ring. Qed.

Lemma blocks_val p L (val val' : Z -> Z -> Z -> @cpx F) n y y' : (forall i r j, val i r j = val' i r j) -> blocks f0 p L val n y y' -> blocks f0 p L val' n y y'.
Proof. intros H (A & B & C). split; [exact A|]. split; [|exact C]. intros i r j Hi Hr Hj. rewrite <- H. apply B; assumption. Qed.

Lemma neon_fft_eq T a b y0 y1 : 0 <= a <= 2 -> 1 <= b <= 5 -> shape_fft T a b -> 2 * fft_size a b <= zlen y0 -> 2 * fft_size a b <= zlen y1 ->
  neon_fft T (fft_size a b) y0 y1 = fft f0 add sub mul T (fft_size a b) y0 y1.
Proof.
  intros Ha Hb Sh L0 L1. change (fft f0 add sub mul) with (fft_with (fft_5 f0 add sub mul) (fft_bf3 f0 add sub mul) (fft_bf2 f0 add sub mul)).
  destruct (fft_with_same (neon_fft_5 f0 add sub opp fma fms) (fft_5 f0 add sub mul) (neon_fft_bf3 f0 opp fma) (fft_bf3 f0 add sub mul)
    (neon_fft_bf2 f0 opp fma fms) (fft_bf2 f0 add sub mul) T a b y0 y1 Ha Hb Sh L0 L1 (fun _ _ _ => True)) as (i & c & o & E & E' & _ & A & B).
  - intros h Hh _ H0 H1. destruct (neon_fft_5_ok f0 add sub mul opp fma fms (ft_5 T) y0 y1 h Hh H0 H1) as (y' & E & Bl).
    destruct (fft_5_blocks f0 add sub mul (ft_5 T) y0 y1 (2 * h) ltac:(lia) H0 H1) as (y2 & E2 & Bl2).
    eapply blocks_val in Bl; [|intros ? ? ?; apply neon5_out_eq].
    assert (y' = y2) as -> by (eapply blocks_unique; [| | |exact Bl|exact Bl2]; lia).
    exists y2. split; [exact E|]. split; [exact E2|]. split; [apply Bl|exact I].
  - intros j tw x y n L _ _ _ Hn _ H2 H3 H4 H5 H6 _. assert (H1 : 0 <= n) by lia. destruct (neon_fft_bf3_ok f0 opp fma tw x y n L H1 H2 H3 H4 H5 H6) as (y' & E & Bl).
    destruct (fft_bf3_blocks f0 add sub mul tw x y n L H1 H2 H3 H4 H5 H6) as (y2 & E2 & Bl2).
    eapply blocks_val in Bl; [|intros ? ? ?; apply neon3_out_eq].
    assert (y' = y2) as -> by (eapply blocks_unique; [| | |exact Bl|exact Bl2]; lia).
    exists y2. split; [exact E|]. split; [exact E2|]. split; [apply Bl|exact I].
  - intros j row tw x y n L _ _ _ _ Hn _ H2 H3 H4 H5 H6 _. assert (H1 : 0 <= n) by lia. destruct (neon_fft_bf2_ok f0 opp fma fms tw x y n L H1 H2 H3 H4 H5 H6) as (y' & E & Bl).
    destruct (fft_bf2_blocks f0 add sub mul tw x y n L H1 H2 H3 H4 H5 H6) as (y2 & E2 & Bl2).
    eapply blocks_val in Bl; [|intros ? ? ?; apply neon2_out_eq].
    assert (y' = y2) as -> by (eapply blocks_unique; [| | |exact Bl|exact Bl2]; lia).
    exists y2. split; [exact E|]. split; [exact E2|]. split; [apply Bl|exact I].
  - unfold neon_fft. rewrite E, E'. reflexivity.
Qed.
End NeonFft.
