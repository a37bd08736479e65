(** * Transform on the real numbers, with exact tables *)
From Coq Require Import Reals ZArith List Bool Lia Lra ZifyBool.
From Verif Require Import Base BaseProofs ConfigModel MdctModel MdctProofs MdctFft MdctSpec MdctMath.
Import ListNotations.
Local Open Scope R_scope.

Definition rat (b : list R) (i : Z) : R := at_ 0 b i.
Definition rfft := fft 0 Rplus Rminus Rmult.
Definition rforward := mdct_forward 0 Rplus Rminus Rmult Ropp.
Definition rinverse := mdct_inverse 0 Rplus Rminus Rmult Ropp.

(** ** Exact tables: comments of src/tables.c lines 76-82, 159-165, 618-624, and of
    src/mdct.c lines 39-43 *)
Definition exact_5 (K : @fft5_consts R) : Prop :=
  k_cos1 K = cos (2 * PI / 5) /\ k_cos2 K = cos (2 * PI * 2 / 5) /\ k_sin1 K = - sin (2 * PI / 5) /\ k_sin2 K = - sin (2 * PI * 2 / 5).
Definition root (P k : Z) : R * R := (cos (2 * PI * IZR k / IZR P), - sin (2 * PI * IZR k / IZR P)).
Definition exact_3 (tw : @bf3_twiddles R) (L : Z) : Prop :=
  shape3 tw L /\ forall k, (0 <= k < 3 * L)%Z -> znth (t_t3 tw) k ((0, 0), (0, 0)) = (root (3 * L) k, root (3 * L) (2 * k)).
Definition exact_2 (tw : @bf2_twiddles R) (L : Z) : Prop :=
  shape2 tw L /\ forall k, (0 <= k < L)%Z -> znth (t_t2 tw) k (0, 0) = root (2 * L) k.
(** The tables for the size [5 * 3^a * 2^b]. *)
Definition exact_fft (T : @fft_tables R) (a b : Z) : Prop :=
  exact_5 (ft_5 T) /\
  (forall j, (0 <= j < a)%Z -> exists tw, rdt (ft_bf3 T) j = Some tw /\ exact_3 tw (5 * 3 ^ j)) /\
  (forall j, (0 <= j < b)%Z -> exists row tw, rdt (ft_bf2 T) j = Some row /\ rdt row a = Some tw /\ exact_2 tw (5 * 3 ^ a * 2 ^ j)).
Definition exact_rot (rot : @mdct_rot R) (ns : Z) : Prop :=
  r_n4 rot = (ns / 2)%Z /\ zlen (r_w rot) = (ns / 2)%Z /\
  forall k, (0 <= k < ns / 2)%Z -> znth (r_w rot) k (0, 0) =
    (sqrt (sqrt (4 / IZR (2 * ns))) * cos (2 * PI * (IZR k + 1 / 8) / IZR (2 * ns)), sqrt (sqrt (4 / IZR (2 * ns))) * sin (2 * PI * (IZR k + 1 / 8) / IZR (2 * ns))).

(** ** FFT *)
Lemma exact_shape T a b : exact_fft T a b -> shape_fft T a b.
Proof.
  intros (_ & H3 & H2). split.
  - intros j Hj. destruct (H3 j Hj) as (tw & E & S & _). exists tw. auto.
  - intros j Hj. destruct (H2 j Hj) as (row & tw & E & E' & S & _). exists row, tw. auto.
Qed.

Lemma root_angle P k m : (P <> 0)%Z -> root P (k * m) = (cos (dft_angle P k m), - sin (dft_angle P k m)).
Proof. reflexivity. Qed.

Lemma fft5_term K x0 x1 x2 x3 x4 r : exact_5 K -> (0 <= r < 5)%Z ->
  fft5_out Rplus Rminus Rmult K x0 x1 x2 x3 x4 r =
  csum 5 (fun m => term 5 r m (if (m =? 0)%Z then x0 else if (m =? 1)%Z then x1 else if (m =? 2)%Z then x2 else if (m =? 3)%Z then x3 else x4)).
Proof.
  intros (E1 & E2 & E3 & E4) Hr. unfold csum. rewrite !sum_5. cbn [Z.eqb Pos.eqb]. unfold term. cbn [fst snd].
  assert (A : forall k m u, (k * m = u)%Z -> ((u mod 5 = 0)%Z -> cos (dft_angle 5 k m) = 1 /\ sin (dft_angle 5 k m) = 0) /\
    ((u mod 5 = 1)%Z -> cos (dft_angle 5 k m) = k_cos1 K /\ sin (dft_angle 5 k m) = - k_sin1 K) /\
    ((u mod 5 = 2)%Z -> cos (dft_angle 5 k m) = k_cos2 K /\ sin (dft_angle 5 k m) = - k_sin2 K) /\
    ((u mod 5 = 3)%Z -> cos (dft_angle 5 k m) = k_cos2 K /\ sin (dft_angle 5 k m) = k_sin2 K) /\
    ((u mod 5 = 4)%Z -> cos (dft_angle 5 k m) = k_cos1 K /\ sin (dft_angle 5 k m) = k_sin1 K)).
  { intros k m u <-. unfold dft_angle. generalize (k * m)%Z. clear k m. intros u. rewrite E1, E2, E3, E4.
    pose proof (Z.div_mod u 5 ltac:(lia)) as D.
    assert (B : forall v x, (u mod 5 = v)%Z -> x = 2 * PI * IZR v / 5 -> cos (2 * PI * IZR u / 5) = cos x /\ sin (2 * PI * IZR u / 5) = sin x).
    { intros v x Hv ->. rewrite D, Hv. rewrite plus_IZR, mult_IZR.
      replace (2 * PI * (5 * IZR (u / 5) + IZR v) / 5) with (2 * PI * IZR v / 5 + 2 * PI * IZR (u / 5)) by field. rewrite cos_2kpi, sin_2kpi. auto. }
    split; [|split; [|split; [|split]]]; intros Hv.
    - destruct (B 0%Z 0 Hv ltac:(field)) as [-> ->]. rewrite cos_0, sin_0. auto.
    - destruct (B 1%Z (2 * PI / 5) Hv ltac:(field)) as [-> ->]. split; ring.
    - destruct (B 2%Z (2 * PI * 2 / 5) Hv ltac:(field)) as [-> ->]. split; ring.
    - destruct (B 3%Z (2 * PI * 3 / 5) Hv ltac:(field)) as [-> ->].
      replace (2 * PI * 3 / 5) with (- (2 * PI * 2 / 5) + 2 * PI * 1) by field. rewrite cos_2kpi, sin_2kpi, cos_neg, sin_neg. auto.
    - destruct (B 4%Z (2 * PI * 4 / 5) Hv ltac:(field)) as [-> ->].
      replace (2 * PI * 4 / 5) with (- (2 * PI / 5) + 2 * PI * 1) by field. rewrite cos_2kpi, sin_2kpi, cos_neg, sin_neg. auto. }
  assert (C : (r = 0 \/ r = 1 \/ r = 2 \/ r = 3 \/ r = 4)%Z) by lia.
  destruct C as [->|[->|[->|[->| ->]]]]; unfold fft5_out; cbn [Z.eqb Pos.eqb];
    repeat match goal with |- context [cos (dft_angle 5 ?k ?m)] =>
      let H := fresh in
      pose proof (A k m _ eq_refl) as H; cbv [Z.mul Pos.mul] in H; destruct H as (? & ? & ? & ? & ?);
      repeat match goal with HH : (?u mod 5 = ?v)%Z -> _ |- _ => first [specialize (HH eq_refl); destruct HH as [? ?]|clear HH] end;
      match goal with HH : cos (dft_angle 5 k m) = _ , HH' : sin (dft_angle 5 k m) = _ |- _ => rewrite !HH, !HH'; clear HH HH' end end;
    f_equal; ring.
Qed.

Lemma bf3_term x0 x1 x2 L k : (0 < L)%Z ->
  bf3_out Rplus Rminus Rmult x0 x1 x2 (root (3 * L) k, root (3 * L) (2 * k)) =
  csum 3 (fun q => term (3 * L) k q (if (q =? 0)%Z then x0 else if (q =? 1)%Z then x1 else x2)).
Proof.
  intros HL. unfold csum. rewrite !sum_3. cbn [Z.eqb Pos.eqb]. rewrite !term_0. unfold bf3_out, root, term, dft_angle. cbn [fst snd].
  rewrite Z.mul_1_r, (Z.mul_comm k 2). f_equal; ring.
Qed.
Lemma bf2_term x0 x1 L k r : (0 < L)%Z -> (0 <= r < 2)%Z ->
  bf2_out Rplus Rminus Rmult x0 x1 (root (2 * L) k) r =
  csum 2 (fun q => term (2 * L) (r * L + k) q (if (q =? 0)%Z then x0 else x1)).
Proof.
  intros HL Hr. unfold csum. rewrite !sum_2. cbn [Z.eqb Pos.eqb]. rewrite !term_0. unfold bf2_out, root, term, dft_angle. cbn [fst snd].
  rewrite Z.mul_1_r. assert (C : (r = 0 \/ r = 1)%Z) by lia. destruct C as [-> | ->]; cbn [Z.eqb Pos.eqb].
  - rewrite Z.mul_0_l, Z.add_0_l. f_equal; ring.
  - rewrite Z.mul_1_l.
    replace (2 * PI * IZR (L + k) / IZR (2 * L)) with (2 * PI * IZR k / IZR (2 * L) + PI) by (rewrite plus_IZR, mult_IZR; field; apply IZR_nz; lia).
    rewrite neg_cos, neg_sin. f_equal; ring.
Qed.

Lemma fft_exact T a b y0 y1 : (0 <= a <= 2)%Z -> (0 <= b <= 5)%Z -> exact_fft T a b -> (2 * fft_size a b <= zlen y0)%Z -> (2 * fft_size a b <= zlen y1)%Z ->
  exists is1 cur other, rfft T (fft_size a b) y0 y1 = Some (is1, (cur, other)) /\
    (forall k, (0 <= k < fft_size a b)%Z -> cat 0 cur k = csum (fft_size a b) (fun m => term (fft_size a b) k m (cat 0 y0 m))) /\
    zlen (if is1 : bool then cur else other) = zlen y1 /\ zlen (if is1 then other else cur) = zlen y0.
Proof.
  intros Ha Hb Ex L0 L1. unfold rfft.
  destruct (fft_stages 0 Rplus Rminus Rmult T a b (fun n L c => stage n L (cat 0 y0) (cat 0 c)) y0 y1 Ha Hb (exact_shape _ _ _ Ex) L0 L1) as (is1 & cur & other & E & S & A & B).
  - intros y' n En V. intros i k Hi Hk. rewrite (Z.mul_comm i 5), V by lia. rewrite fft5_term by (try apply Ex; lia). apply csum_ext. intros m Hm. f_equal.
    assert (C : (m = 0 \/ m = 1 \/ m = 2 \/ m = 3 \/ m = 4)%Z) by lia.
    destruct C as [->|[->|[->|[->| ->]]]]; cbn [Z.eqb Pos.eqb]; f_equal; lia.
  - intros j tw n L c c' Hj Et EL Hn EP S V.
    destruct Ex as (_ & H3 & _). destruct (H3 j Hj) as (tw' & Et' & _ & Ev). assert (tw' = tw) by congruence. subst tw'. rewrite <- EL in Ev.
    assert (HL : (0 < L)%Z) by (rewrite EL; apply Z.mul_pos_pos; [lia|apply Z.pow_pos_nonneg; lia]).
    apply (stage_step 3 L n _ (cat 0 c)); [lia|exact HL|exact S|].
    intros i r k Hi Hr Hk. rewrite V by assumption. unfold d2, d1. rewrite Ev by nia. rewrite bf3_term by exact HL. apply csum_ext. intros q Hq. f_equal.
    assert (C : (q = 0 \/ q = 1 \/ q = 2)%Z) by lia. destruct C as [->|[->| ->]]; cbn [Z.eqb Pos.eqb]; f_equal; lia.
  - intros j row tw n L c c' Hj Er Et EL Hn EP S V.
    destruct Ex as (_ & _ & H2). destruct (H2 j Hj) as (row' & tw' & Er' & Et' & _ & Ev). assert (row' = row) by congruence. subst row'. assert (tw' = tw) by congruence. subst tw'. rewrite <- EL in Ev.
    assert (HL : (0 < L)%Z) by (rewrite EL; apply Z.mul_pos_pos; [apply Z.mul_pos_pos; [lia|]|]; apply Z.pow_pos_nonneg; lia).
    apply (stage_step 2 L n _ (cat 0 c)); [lia|exact HL|exact S|].
    intros i r k Hi Hr Hk. rewrite V by assumption. unfold d1. rewrite Ev by nia. rewrite bf2_term by (try exact HL; lia). apply csum_ext. intros q Hq. f_equal.
    assert (C : (q = 0 \/ q = 1)%Z) by lia. destruct C as [-> | ->]; cbn [Z.eqb Pos.eqb]; f_equal; lia.
  - exists is1, cur, other. split; [exact E|]. split; [|split; assumption].
    intros k Hk. pose proof (S 0%Z k ltac:(lia) Hk) as Sk. rewrite Z.mul_0_l, Z.add_0_l in Sk. rewrite Sk. apply csum_ext. intros m Hm. do 2 f_equal. lia.
Qed.

(** ** Forward transform *)
Section Transform.
Variables (T : @fft_tables R) (rot : @mdct_rot R) (a b Q nd : Z) (win : list R).
Let P := (2 * Q)%Z.
Let ns := (2 * P)%Z.
Hypothesis Ha : (0 <= a <= 2)%Z.
Hypothesis Hb : (0 <= b <= 5)%Z.
Hypothesis HQ : (0 < Q)%Z.
Hypothesis EP : fft_size a b = P.
Hypothesis Ex : exact_fft T a b.
Hypothesis Er : exact_rot rot ns.
Hypothesis Hnd : (P <= nd <= ns)%Z.
Hypothesis Ev : exists u, (ns - nd = 2 * u)%Z.
Hypothesis Lw : zlen win = (ns + nd)%Z.

Lemma nsP : (2 * P / 2 = P)%Z.
Proof. rewrite Z.mul_comm. apply Z.div_mul. lia. Qed.

Lemma rot_at k : (0 <= k < P)%Z ->
  let c := sqrt (sqrt (2 / IZR (2 * P))) in
  znth (r_w rot) k (0, 0) = (c * cos (PI / IZR (2 * P) * (IZR k + 1 / 8)), c * sin (PI / IZR (2 * P) * (IZR k + 1 / 8))).
Proof.
  intros Hk c. destruct Er as (_ & _ & V). rewrite V by (unfold ns; rewrite nsP; exact Hk).
  assert (PP : IZR P <> 0) by (apply IZR_nz; unfold P; lia).
  assert (E1 : IZR ns = 2 * IZR P) by (unfold ns; apply mult_IZR).
  replace (4 / IZR (2 * ns)) with (2 / IZR (2 * P)) by (rewrite !mult_IZR, E1; field; exact PP). fold c.
  replace (2 * PI * (IZR k + 1 / 8) / IZR (2 * ns)) with (PI / IZR (2 * P) * (IZR k + 1 / 8)) by (rewrite !mult_IZR, E1; field; exact PP).
  reflexivity.
Qed.
Lemma rot_c : let c := sqrt (sqrt (2 / IZR (2 * P))) in c * c = sqrt (2 / IZR (2 * P)).
Proof. intros c. apply sqrt_sqrt. apply sqrt_pos. Qed.

Lemma win_zero n : (ns + nd <= n)%Z -> rat win n = 0.
Proof. intros H. unfold rat, at_. apply nth_overflow. unfold zlen in Lw. lia. Qed.

Lemma forward_ok ns_dst scale x d y buf :
  (ns <= zlen x)%Z -> (nd <= zlen d)%Z -> (ns <= zlen y)%Z -> (ns <= zlen buf)%Z -> (exists m, 0 <= m /\ ns_dst = 4 * m)%Z -> (ns_dst <= zlen y)%Z ->
  exists d' y', rforward T rot ns nd win ns_dst scale x d y buf = Some (d', y') /\ zlen d' = zlen d /\ zlen y' = zlen y /\
    (forall q, (0 <= q < nd)%Z -> rat d' q = rat x (ns - nd + q)) /\
    (forall k, (0 <= k < ns)%Z -> rat y' k = (if (ns =? ns_dst)%Z then 1 else if (k <? ns_dst)%Z then scale else 1) * mdct ns (rat win) (tin 0 nd d x) k).
Proof.
  intros Lx Ld Ly Lb (m & Hm & Edst) Ldst. unfold rforward, mdct_forward. unfold ns in *.
  destruct (mdct_window_ok 0 Rplus Rminus Rmult P nd win x d buf) as (d' & u & E1 & Ld' & Lu & Vd & Vu); try lia; [exact Ev|exists Q; reflexivity|].
  rewrite E1. cbn [bind].
  destruct Er as (En & Ew & _). rewrite nsP in En, Ew.
  destruct (mdct_pre_ok 0 Rplus Rminus Rmult Ropp rot None u Q) as (u2 & E2 & L2 & V2); try (cbn [inp]; lia). rewrite E2. cbn [bind].
  replace (2 * P / 2)%Z with (fft_size a b) by (rewrite EP; symmetry; apply nsP).
  destruct (fft_exact T a b u2 y Ha Hb Ex ltac:(lia) ltac:(lia)) as (is1 & cur & other & E3 & V3 & L3a & L3b). unfold rfft in E3. rewrite E3. cbn [bind].
  rewrite EP in V3.
  set (G := folded P (fun n => rat win n * tin 0 nd d x n)).
  assert (Z : forall p, (0 <= p < P)%Z -> 
    fst (cat 0 cur p) * fst (znth (r_w rot) p (0,0)) + snd (cat 0 cur p) * snd (znth (r_w rot) p (0,0)) = dct4 (2 * P) G (2 * p) /\
    fst (cat 0 cur p) * snd (znth (r_w rot) p (0,0)) - snd (cat 0 cur p) * fst (znth (r_w rot) p (0,0)) = dct4 (2 * P) G (2 * P - 1 - 2 * p)).
  { apply (dct4_fft P (sqrt (sqrt (2 / IZR (2 * P)))) (fun j => znth (r_w rot) j (0, 0)) (cat 0 u2) (cat 0 cur) G); [lia|exact rot_c|exact rot_at| |exact V3].
    intros j Hj. rewrite V2 by exact Hj. cbn [inp]. unfold pre_val, even_odd, d1. set (w := znth (r_w rot) j (0, 0)). fold P.
    assert (GV : forall n, (0 <= n < 2 * P)%Z -> G n = (if (n <? P)%Z then -1 else 1) * at_ 0 u (2 * P - 1 - n)).
    { intros n Hn. unfold G, folded. destruct (n <? P)%Z eqn:C.
      - destruct (Vu (P - 1 - n)%Z ltac:(lia)) as [_ V]. replace (2 * P - 1 - n)%Z with (P + (P - 1 - n))%Z by ring. rewrite V.
        unfold win_hi, fold_hi. destruct (P - 1 - n <? 2 * P - nd)%Z eqn:C2; [rewrite (win_zero (2 * (2 * P) - 1 - (P - 1 - n))) by lia|]; unfold rat; ring.
      - destruct (Vu (n - P)%Z ltac:(lia)) as [V _]. replace (2 * P - 1 - n)%Z with (P - 1 - (n - P))%Z by ring. rewrite V. unfold win_lo, fold_lo, rat. ring. }
    rewrite !GV by lia. replace (2 * P - 1 - (2 * P - 1 - 2 * j))%Z with (2 * j)%Z by ring.
    destruct (j <? Q)%Z eqn:C.
    - replace (2 * j <? P)%Z with true by lia. replace (2 * P - 1 - 2 * j <? P)%Z with false by lia. f_equal; ring.
    - replace (2 * j <? P)%Z with false by lia. replace (2 * P - 1 - 2 * j <? P)%Z with true by lia. f_equal; ring. }
  assert (PO : exists y', (if is1 then mdct_post_fft 0 Rplus Rminus Rmult rot None cur else mdct_post_fft 0 Rplus Rminus Rmult rot (Some cur) other) = Some y' /\ zlen y' = zlen y /\
     forall k, (0 <= k < 2 * P)%Z -> rat y' k = dct4 (2 * P) G k).
  { assert (K : forall src yy, inp src yy = cur -> zlen yy = zlen y -> (4 * Q <= zlen cur)%Z -> exists y', mdct_post_fft 0 Rplus Rminus Rmult rot src yy = Some y' /\ zlen y' = zlen y /\
      forall k, (0 <= k < 2 * P)%Z -> rat y' k = dct4 (2 * P) G k).
    { intros src yy Ei Ly' Lc. destruct (mdct_post_ok 0 Rplus Rminus Rmult rot src yy Q) as (y' & E & L & V); try lia; [rewrite Ei; exact Lc|].
      exists y'. split; [exact E|]. split; [lia|]. intros k Hk. rewrite Ei in V. cbv zeta in V. fold P in V.
      destruct (Z.Even_or_Odd k) as [[p Ek]|[p Ek]].
      - destruct (V p ltac:(lia)) as [Va _]. destruct (Z p ltac:(lia)) as [Za _]. unfold rat. rewrite Ek, Va, <- Za. unfold d1. ring.
      - destruct (V (P - 1 - p)%Z ltac:(lia)) as [_ Va]. destruct (Z (P - 1 - p)%Z ltac:(lia)) as [_ Za]. unfold rat.
        replace k with (2 * P - 1 - 2 * (P - 1 - p))%Z by lia. rewrite Va, <- Za. unfold d1. ring. }
    destruct is1; apply K; try reflexivity; try assumption; lia. }
  destruct PO as (y' & E4 & L4 & V4). rewrite E4. cbn [bind].
  assert (V5 : forall k, (0 <= k < 2 * P)%Z -> rat y' k = mdct (2 * P) (rat win) (tin 0 nd d x) k) by (intros k Hk; rewrite mdct_folded by lia; apply V4; exact Hk).
  destruct (2 * P =? ns_dst)%Z eqn:C.
  - cbn [bind]. exists d', y'. split; [reflexivity|]. split; [exact Ld'|]. split; [exact L4|]. split; [exact Vd|]. intros k Hk. rewrite V5 by exact Hk. ring.
  - destruct (rescale_ok 0 Rmult y' ns_dst scale m Hm Edst ltac:(lia)) as (y2 & E5 & L5 & V6). rewrite E5. cbn [bind]. exists d', y2.
    split; [reflexivity|]. split; [exact Ld'|]. split; [lia|]. split; [exact Vd|]. intros k Hk. unfold rat at 1. rewrite V6 by lia. fold (rat y' k). rewrite V5 by exact Hk.
    destruct (k <? ns_dst)%Z; ring.
Qed.

(** ** Inverse transform *)
Lemma inverse_ok ns_src scale src d y buf :
  (ns <= zlen (inp src y))%Z -> (nd <= zlen d)%Z -> (ns <= zlen y)%Z -> (ns <= zlen buf)%Z ->
  exists d' y', rinverse T rot ns nd win ns_src scale src d y buf = Some (d', y') /\ zlen d' = zlen d /\ zlen y' = zlen y /\
    let X := rat (inp src y) in let g := if (ns =? ns_src)%Z then 1 else scale in
    (forall q, (0 <= q < nd)%Z -> rat d' q = g * (rat win (nd - 1 - q) * imdct ns X (2 * ns - nd + q))) /\
    (forall q, (0 <= q < ns)%Z -> rat y' q = (if (q <? nd)%Z then rat d q else 0) + g * (rat win (ns + nd - 1 - q) * imdct ns X (ns - nd + q))).
Proof.
  intros Lx Ld Ly Lb. unfold rinverse, mdct_inverse. unfold ns in *. set (X := rat (inp src y)).
  destruct Er as (En & Ew & _). rewrite nsP in En, Ew.
  destruct (imdct_pre_ok 0 Rplus Rminus Rmult Ropp rot src y Q) as (u & E1 & L1 & V1); try lia. rewrite E1. cbn [bind].
  replace (2 * P / 2)%Z with (fft_size a b) by (rewrite EP; symmetry; apply nsP).
  destruct (fft_exact T a b u buf Ha Hb Ex ltac:(lia) ltac:(lia)) as (is1 & cur & other & E3 & V3 & L3a & L3b). unfold rfft in E3. rewrite E3. cbn [bind].
  rewrite EP in V3.
  set (G n := - X n).
  assert (Z : forall p, (0 <= p < P)%Z -> 
    fst (cat 0 cur p) * fst (znth (r_w rot) p (0,0)) + snd (cat 0 cur p) * snd (znth (r_w rot) p (0,0)) = dct4 (2 * P) G (2 * p) /\
    fst (cat 0 cur p) * snd (znth (r_w rot) p (0,0)) - snd (cat 0 cur p) * fst (znth (r_w rot) p (0,0)) = dct4 (2 * P) G (2 * P - 1 - 2 * p)).
  { apply (dct4_fft P (sqrt (sqrt (2 / IZR (2 * P)))) (fun j => znth (r_w rot) j (0, 0)) (cat 0 u) (cat 0 cur) G); [lia|exact rot_c|exact rot_at| |exact V3].
    intros j Hj. rewrite V1 by exact Hj. unfold ipre_val, even_odd, d1. set (w := znth (r_w rot) j (0, 0)). fold P. unfold G, X, rat. f_equal; ring. }
  assert (GD : forall k, dct4 (2 * P) G k = - dct4 (2 * P) X k).
  { intros k. unfold dct4, G. rewrite Ropp_mult_distr_r. f_equal. rewrite <- (Rmult_1_l (sum _ (fun n => X n * _))), Ropp_mult_distr_l, <- sum_scal. apply sum_ext. intros; ring. }
  assert (PO : exists h, (if is1 then imdct_post_fft 0 Rplus Rminus Rmult rot None cur else imdct_post_fft 0 Rplus Rminus Rmult rot (Some cur) other) = Some h /\ zlen h = zlen buf /\
     forall k, (0 <= k < 2 * P)%Z -> rat h k = imdct (2 * P) X (P + k)).
  { assert (K : forall s yy, inp s yy = cur -> zlen yy = zlen buf -> (4 * Q <= zlen cur)%Z -> exists y', imdct_post_fft 0 Rplus Rminus Rmult rot s yy = Some y' /\ zlen y' = zlen buf /\
      forall k, (0 <= k < 2 * P)%Z -> rat y' k = imdct (2 * P) X (P + k)).
    { intros s yy Ei Ly' Lc. destruct (imdct_post_ok 0 Rplus Rminus Rmult rot s yy Q) as (y' & E & L & V); try lia; [rewrite Ei; exact Lc|].
      exists y'. split; [exact E|]. split; [lia|]. intros k Hk. rewrite imdct_dct4, <- GD by lia. rewrite Ei in V. cbv zeta in V. fold P in V.
      destruct (Z.Even_or_Odd k) as [[p Ek]|[p Ek]].
      - destruct (V p ltac:(lia)) as [Va _]. destruct (Z p ltac:(lia)) as [_ Za]. unfold rat. rewrite Ek, Va, <- Za. unfold d1. ring.
      - destruct (V (P - 1 - p)%Z ltac:(lia)) as [_ Va]. destruct (Z (P - 1 - p)%Z ltac:(lia)) as [Za _]. unfold rat.
        replace (2 * P - 1 - k)%Z with (2 * (P - 1 - p))%Z by lia. replace k with (2 * P - 1 - 2 * (P - 1 - p))%Z by lia. rewrite Va, <- Za. unfold d1. ring. }
    destruct is1; apply K; try reflexivity; try assumption; lia. }
  destruct PO as (h & E4 & L4 & V4). rewrite E4. cbn [bind].
  set (g := if (2 * P =? ns_src)%Z then 1 else scale).
  assert (RS : exists h2, (if (2 * P =? ns_src)%Z then Some h else rescale 0 Rmult h (2 * P) scale) = Some h2 /\ zlen h2 = zlen buf /\
     forall k, (0 <= k < 2 * P)%Z -> rat h2 k = g * imdct (2 * P) X (P + k)).
  { unfold g. destruct (2 * P =? ns_src)%Z.
    - exists h. split; [reflexivity|]. split; [exact L4|]. intros k Hk. rewrite V4 by exact Hk. ring.
    - destruct (rescale_ok 0 Rmult h (2 * P) scale Q ltac:(lia) ltac:(unfold P; lia) ltac:(lia)) as (h2 & E5 & L5 & V5). exists h2. split; [exact E5|]. split; [lia|].
      intros k Hk. unfold rat. rewrite V5 by lia. replace (k <? 2 * P)%Z with true by lia. fold (rat h k). rewrite V4 by exact Hk. ring. }
  destruct RS as (h2 & E5 & L5 & V5). rewrite E5. cbn [bind].
  assert (Lyo : zlen (if is1 then other else cur) = zlen y) by (rewrite L3b; exact L1).
  destruct (imdct_window_ok 0 Rplus Rminus Rmult P nd win h2 d (if is1 then other else cur)) as (d' & y' & E6 & Ld' & Ly' & Vd & Vy); try lia; [exact Ev|exists Q; reflexivity|].
  exists d', y'. split; [exact E6|]. split; [exact Ld'|]. split; [lia|]. cbv zeta. split.
  - intros q Hq. unfold rat at 1. rewrite Vd by exact Hq. unfold iwin_d. destruct (q <? nd - P)%Z eqn:C.
    + fold (rat h2 (3 * P - nd + q)). rewrite V5 by lia. replace (P + (3 * P - nd + q))%Z with (2 * (2 * P) - nd + q)%Z by ring. unfold rat. ring.
    + fold (rat h2 (P + nd - 1 - q)). rewrite V5 by lia. replace (2 * (2 * P) - nd + q)%Z with (2 * P + (2 * P - nd + q))%Z by ring. rewrite imdct_even by lia.
      replace (2 * (2 * P) - 1 - (2 * P - nd + q))%Z with (P + (P + nd - 1 - q))%Z by ring. unfold rat. ring.
  - intros q Hq. unfold rat at 1. rewrite Vy by exact Hq. unfold iwin_y. destruct (q <? nd - P)%Z eqn:C.
    + replace (q <? nd)%Z with true by lia. fold (rat h2 (nd - P - 1 - q)). rewrite V5 by lia. rewrite (imdct_odd P X (2 * P - nd + q)) by lia.
      replace (2 * P - 1 - (2 * P - nd + q))%Z with (P + (nd - P - 1 - q))%Z by ring. unfold rat. ring.
    + fold (rat h2 (q - (nd - P))). rewrite V5 by lia. replace (P + (q - (nd - P)))%Z with (2 * P - nd + q)%Z by ring. unfold rat. destruct (q <? nd)%Z; ring.
Qed.
End Transform.
