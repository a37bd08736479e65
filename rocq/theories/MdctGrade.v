(** * Transforms: growth of the values
    [P k v] says that [v] is of grade [k]: a sum of two numbers of a grade has the next grade,
    the product by a number of a table keeps it. This is used for the bounds of the floats,
    and for the null signals. *)
From Coq Require Import ZArith List Bool Lia ZifyBool.
From Verif Require Import Base BaseProofs ConfigModel MdctModel MdctProofs MdctFft MdctStream.
Import ListNotations.
Local Open Scope Z_scope.

Section Grade.
Context {F : Type} (f0 : F) (add sub mul : F -> F -> F) (opp : F -> F).
Variables (P : Z -> F -> Prop) (W V Sc : F -> Prop).
Hypothesis P_mono : forall k k' x, P k x -> k <= k' -> P k' x.
Hypothesis P_add : forall k x y, 0 <= k <= 90 -> P k x -> P k y -> P (k + 1) (add x y).
Hypothesis P_sub : forall k x y, 0 <= k <= 90 -> P k x -> P k y -> P (k + 1) (sub x y).
Hypothesis P_opp : forall k x, P k x -> P k (opp x).
(** The tables of rotations, the windows, the scaling factor. *)
Hypothesis P_mul : forall k x w, 0 <= k <= 90 -> P k x -> W w -> P k (mul x w).
Hypothesis P_win : forall k x w, 0 <= k <= 90 -> P k x -> V w -> P (k + 1) (mul x w).
Hypothesis P_scale : forall k x w, 0 <= k <= 90 -> P k x -> Sc w -> P (k + 2) (mul x w).

Notation at_ := (at_ f0).
Notation cat := (cat f0).
Notation d1 := (d1 f0).
Notation d2 := (d2 f0).
Definition Pc (k : Z) (c : @cpx F) : Prop := P k (fst c) /\ P k (snd c).
Definition Wc (c : @cpx F) : Prop := W (fst c) /\ W (snd c).

Lemma add_ k x y : 0 <= k - 1 <= 90 -> P (k - 1) x -> P (k - 1) y -> P k (add x y).
Proof. intros K Hx Hy. replace k with (k - 1 + 1) by lia. apply P_add; assumption. Qed.
Lemma sub_ k x y : 0 <= k - 1 <= 90 -> P (k - 1) x -> P (k - 1) y -> P k (sub x y).
Proof. intros K Hx Hy. replace k with (k - 1 + 1) by lia. apply P_sub; assumption. Qed.
Lemma win_ k x w : 0 <= k - 1 <= 90 -> P (k - 1) x -> V w -> P k (mul x w).
Proof. intros K Hx Hw. replace k with (k - 1 + 1) by lia. apply P_win; assumption. Qed.
Ltac gr := repeat match goal with
  | |- P _ (add _ _) => apply add_; [lia| |]
  | |- P _ (sub _ _) => apply sub_; [lia| |]
  | |- P _ (opp _) => apply P_opp
  | |- P _ (mul _ _) => apply P_mul; [lia| |assumption]
  | H : P ?a ?x |- P ?b ?x => apply (P_mono a b x H); lia
  end.

(** ** The stages *)
Definition W5 (K : @fft5_consts F) : Prop := W (k_cos1 K) /\ W (k_cos2 K) /\ W (k_sin1 K) /\ W (k_sin2 K).
Lemma fft5_grade K k x0 x1 x2 x3 x4 r : 0 <= k <= 80 -> W5 K -> Pc k x0 -> Pc k x1 -> Pc k x2 -> Pc k x3 -> Pc k x4 -> Pc (k + 5) (fft5_out add sub mul K x0 x1 x2 x3 x4 r).
Proof.
  intros Hk (W1 & W2 & W3 & W4) (A0 & B0) (A1 & B1) (A2 & B2) (A3 & B3) (A4 & B4). unfold fft5_out. cbv zeta.
  destruct (r =? 0); [|destruct (r =? 1); [|destruct (r =? 2); [|destruct (r =? 3)]]]; split; cbn [fst snd]; gr.
Qed.
Lemma bf3_grade k x0 x1 x2 w : 0 <= k <= 80 -> Wc (fst w) -> Wc (snd w) -> Pc k x0 -> Pc k x1 -> Pc k x2 -> Pc (k + 4) (bf3_out add sub mul x0 x1 x2 w).
Proof. intros Hk (W1 & W2) (W3 & W4) (A0 & B0) (A1 & B1) (A2 & B2). destruct w as [wa wb]. unfold bf3_out. cbn [fst snd] in *. split; cbn [fst snd]; gr. Qed.
Lemma bf2_grade k x0 x1 w r : 0 <= k <= 80 -> Wc w -> Pc k x0 -> Pc k x1 -> Pc (k + 2) (bf2_out add sub mul x0 x1 w r).
Proof. intros Hk (W1 & W2) (A0 & B0) (A1 & B1). unfold bf2_out. destruct (r =? 0); split; cbn [fst snd]; gr. Qed.
Lemma pre_grade k Q X w j : 0 <= k <= 80 -> 0 <= j < 2 * Q -> Wc w -> (forall q, 0 <= q < 4 * Q -> P k (X q)) -> Pc (k + 1) (pre_val add sub mul opp Q X w j).
Proof.
  intros Hk Hj (W1 & W2) HX. unfold pre_val, even_odd. pose proof (HX (2 * j) ltac:(lia)) as A. pose proof (HX (2 * (2 * Q) - 1 - 2 * j) ltac:(lia)) as B. destruct (j <? Q); split; cbn [fst snd]; gr.
Qed.
Lemma ipre_grade k Q X w j : 0 <= k <= 80 -> 0 <= j < 2 * Q -> Wc w -> (forall q, 0 <= q < 4 * Q -> P k (X q)) -> Pc (k + 1) (ipre_val add sub mul opp Q X w j).
Proof.
  intros Hk Hj (W1 & W2) HX. unfold ipre_val, even_odd. pose proof (HX (2 * j) ltac:(lia)) as A. pose proof (HX (2 * (2 * Q) - 1 - 2 * j) ltac:(lia)) as B. split; cbn [fst snd]; gr.
Qed.

(** ** The FFT *)
Definition good_fft (T : @fft_tables F) : Prop :=
  W5 (ft_5 T) /\
  (forall j tw i, rdt (ft_bf3 T) j = Some tw -> 0 <= i < zlen (t_t3 tw) -> Wc (fst (znth (t_t3 tw) i d2)) /\ Wc (snd (znth (t_t3 tw) i d2))) /\
  (forall j row a tw i, rdt (ft_bf2 T) j = Some row -> rdt row a = Some tw -> 0 <= i < zlen (t_t2 tw) -> Wc (znth (t_t2 tw) i d1)).
Definition growth (L : Z) : Z := 5 + 4 * exp3 L + 2 * exp2 L.
Lemma growth_3 j : 0 <= j < 2 -> growth (3 * (5 * 3 ^ j)) = growth (5 * 3 ^ j) + 4 /\ 5 <= growth (5 * 3 ^ j) <= 20.
Proof. intros H. assert (C : j = 0 \/ j = 1) by lia. destruct C as [->| ->]; vm_compute; repeat split; discriminate. Qed.
Lemma growth_2 a j : 0 <= a <= 2 -> 0 <= j < 5 -> growth (2 * (5 * 3 ^ a * 2 ^ j)) = growth (5 * 3 ^ a * 2 ^ j) + 2 /\ 5 <= growth (5 * 3 ^ a * 2 ^ j) <= 23.
Proof.
  intros Ha H. assert (C : j = 0 \/ j = 1 \/ j = 2 \/ j = 3 \/ j = 4) by lia. assert (Ca : a = 0 \/ a = 1 \/ a = 2) by lia.
  destruct Ca as [->|[->| ->]]; destruct C as [->|[->|[->|[->| ->]]]]; vm_compute; repeat split; discriminate.
Qed.

Lemma divide_pos n L q : 0 < L -> 0 <= q < n * L -> 0 <= q / L < n /\ 0 <= q mod L < L /\ q = q / L * L + q mod L.
Proof. intros HL Hq. pose proof (Z.mod_pos_bound q L HL). assert (q / L < n) by (apply Z.div_lt_upper_bound; lia). pose proof (Z.div_pos q L). pose proof (Z.div_mod q L). lia. Qed.
Lemma fft_grade T a b k y0 y1 : 0 <= a <= 2 -> 0 <= b <= 5 -> 0 <= k <= 50 -> shape_fft T a b -> good_fft T ->
  2 * fft_size a b <= zlen y0 -> 2 * fft_size a b <= zlen y1 -> (forall q, 0 <= q < fft_size a b -> Pc k (cat y0 q)) ->
  exists is1 cur other, fft f0 add sub mul T (fft_size a b) y0 y1 = Some (is1, (cur, other)) /\
    (forall q, 0 <= q < fft_size a b -> Pc (k + growth (fft_size a b)) (cat cur q)) /\
    zlen (if is1 : bool then cur else other) = zlen y1 /\ zlen (if is1 then other else cur) = zlen y0.
Proof.
  intros Ha Hb Hk Sh (G5 & G3 & G2) L0 L1 HX.
  assert (P3 : forall k, 0 <= k -> 0 < 3 ^ k) by (clear; intros; apply Z.pow_pos_nonneg; [reflexivity|assumption]).
  assert (P2 : forall k, 0 <= k -> 0 < 2 ^ k) by (clear; intros; apply Z.pow_pos_nonneg; [reflexivity|assumption]).
  pose proof Sh as (S3 & S2).
  destruct (fft_stages f0 add sub mul T a b (fun n L y => 0 < L /\ (n * L = fft_size a b -> forall q, 0 <= q < fft_size a b -> Pc (k + growth L) (cat y q))) y0 y1 Ha Hb Sh L0 L1) as (is1 & cur & other & E & (_ & I) & La & Lb).
  - intros y' n En Vv. split; [lia|]. intros EP q Hq. rewrite <- EP in Hq. destruct (divide_pos n 5 q ltac:(lia) Hq) as (D1 & D2 & D3). rewrite D3, (Z.mul_comm _ 5), Vv by assumption.
    change (growth 5) with 5. apply fft5_grade; [lia|exact G5|..]; apply HX; lia.
  - intros j tw n L c c' Hj Et EL Hn EP (HL & I) Vv. split; [lia|]. intros _ q Hq. specialize (I ltac:(lia)). rewrite EL at 1. destruct (growth_3 j ltac:(lia)) as (-> & Gr). rewrite <- EL in *. rewrite <- EP in Hq.
    destruct (divide_pos n (3 * L) q ltac:(lia) Hq) as (D1 & D2 & D3). destruct (divide_pos 3 L (q mod (3 * L)) ltac:(lia) D2) as (E1 & E2 & E3).
    replace q with (q / (3 * L) * (3 * L) + q mod (3 * L) / L * L + q mod (3 * L) mod L) by lia. set (i := q / (3 * L)) in *. set (r := q mod (3 * L) / L) in *. set (m := q mod (3 * L) mod L) in *. clearbody i r m.
    rewrite Vv by assumption. destruct (S3 j Hj) as (tw' & Et' & _ & Sl). rewrite Et in Et'. injection Et' as <-. rewrite <- EL in Sl.
    destruct (G3 j tw (r * L + m) Et ltac:(nia)) as (W1 & W2). rewrite Z.add_assoc. clear - P_mono P_add P_sub P_mul W1 W2 I Gr D1 E1 E2 EP Hk HL. apply bf3_grade; try assumption; try lia; apply I; rewrite <- EP; nia.
  - intros j row tw n L c c' Hj Er Et EL Hn EP (HL & I) Vv. split; [lia|]. intros _ q Hq. specialize (I ltac:(lia)). rewrite EL at 1. destruct (growth_2 a j ltac:(lia) ltac:(lia)) as (-> & Gr). rewrite <- EL in *. rewrite <- EP in Hq.
    destruct (divide_pos n (2 * L) q ltac:(lia) Hq) as (D1 & D2 & D3). destruct (divide_pos 2 L (q mod (2 * L)) ltac:(lia) D2) as (E1 & E2 & E3).
    replace q with (q / (2 * L) * (2 * L) + q mod (2 * L) / L * L + q mod (2 * L) mod L) by lia. set (i := q / (2 * L)) in *. set (r := q mod (2 * L) / L) in *. set (m := q mod (2 * L) mod L) in *. clearbody i r m.
    rewrite Vv by assumption. destruct (S2 j Hj) as (row' & tw' & Er' & Et' & _ & Sl). rewrite Er in Er'. injection Er' as <-. rewrite Et in Et'. injection Et' as <-. rewrite <- EL in Sl.
    pose proof (G2 j row a tw m Er Et ltac:(lia)) as W1. rewrite Z.add_assoc. clear - P_mono P_add P_sub P_mul W1 I Gr D1 E1 E2 EP Hk HL. apply bf2_grade; try assumption; try lia; apply I; rewrite <- EP; nia.
  - exists is1, cur, other. split; [exact E|]. split; [apply I; lia|]. auto.
Qed.

(** ** The transforms *)
Definition good_rot (rot : @mdct_rot F) : Prop := forall i, 0 <= i < zlen (r_w rot) -> Wc (znth (r_w rot) i d1).
Definition good_win (win : list F) : Prop := forall i, 0 <= i < zlen win -> V (at_ win i).

Lemma cfg_growth dt sr : has_transform dt sr -> growth (c_ns dt sr / 2) <= 19.
Proof.
  intros (Hd & Hs & H7). assert (D : forallb (fun dt => forallb (fun sr => ((dt =? 2) && (5 <=? sr)) || (growth (c_ns dt sr / 2) <=? 19)) [0; 1; 2; 3; 4; 5; 6]) [0; 1; 2; 3] = true) by (vm_compute; reflexivity).
  rewrite forallb_forall in D. specialize (D dt ltac:(cbn [In]; lia)). cbv beta in D. rewrite forallb_forall in D. specialize (D sr ltac:(cbn [In]; lia)). cbv beta in D. unfold DT_7M5, SRATE_48K_HR in H7. lia.
Qed.

Lemma forward_grade T rot win dt sr ns_dst scale k x d y buf :
  has_transform dt sr -> shapes T rot win dt sr -> good_fft T -> good_rot rot -> good_win win -> (c_ns dt sr <> ns_dst -> W scale) ->
  0 <= k <= 40 -> (forall q, 0 <= q < c_ns dt sr -> P k (at_ x q)) -> (forall q, 0 <= q < c_nd dt sr -> P k (at_ d q)) ->
  c_ns dt sr <= zlen x -> c_nd dt sr <= zlen d -> c_ns dt sr <= zlen y -> c_ns dt sr <= zlen buf ->
  0 <= ns_dst -> ns_dst mod 4 = 0 -> ns_dst <= zlen y ->
  exists d' y', mdct_forward f0 add sub mul opp T rot (c_ns dt sr) (c_nd dt sr) win ns_dst scale x d y buf = Some (d', y') /\
    zlen d' = zlen d /\ zlen y' = zlen y /\ (forall q, 0 <= q < c_nd dt sr -> P k (at_ d' q)) /\ (forall q, 0 <= q < c_ns dt sr -> P (k + 23) (at_ y' q)).
Proof.
  intros Hc Hs GT GR GW GS Hk Hx Hd Lx Ld Ly Lb H0 H4 Ldst. pose proof (cfg_growth dt sr Hc) as Hg. destruct (cfg_ok dt sr Hc) as (Q & HQ & Ha & Hb & EP & Ens & Ef & Hnd & Hu & _).
  unfold shapes in Hs. cbv zeta in Hs. destruct Hs as (S1 & S2 & S3 & S4).
  assert (Hb5 : 0 <= exp2 (c_ns dt sr / 2) <= 5) by (destruct (exp3 (c_ns dt sr / 2) =? 2); lia). clear Hb.
  set (a := exp3 _) in *. set (b := exp2 _) in *. unfold mdct_forward. rewrite EP in *. rewrite Ens in *. set (nd := c_nd dt sr) in *. clearbody a b nd. clear Hc dt sr Ens.
  destruct (mdct_window_ok f0 add sub mul (2 * Q) nd win x d buf) as (d' & u & E1 & Ld' & Lu & Vd & Vy); try lia; [exact Hu|exists Q; reflexivity|].
  rewrite E1. cbn [bind].
  assert (Ht : forall n, 0 <= n < nd + 2 * (2 * Q) -> P k (tin f0 nd d x n)) by (intros n Hn; unfold tin; destruct (n <? nd) eqn:E; [apply Hd; lia|apply Hx; lia]).
  assert (Hw : forall i, 0 <= i < 2 * Q -> P (k + 2) (win_lo f0 sub mul (2 * (2 * Q)) nd win d x i) /\ P (k + 2) (win_hi f0 add mul (2 * (2 * Q)) nd win d x i)).
  { intros i Hi. assert (M : forall n m, 0 <= n < nd + 2 * (2 * Q) -> 0 <= m < zlen win -> P (k + 1) (mul (tin f0 nd d x n) (at_ win m))) by (intros n m Hn Hm; apply P_win; [lia|apply Ht, Hn|apply GW, Hm]).
    unfold win_lo, win_hi. split; [apply sub_; [lia| |]; (eapply P_mono; [apply M; lia|lia])|].
    destruct (i <? 2 * (2 * Q) - nd) eqn:E; [eapply P_mono; [apply M; lia|lia]|]. apply add_; [lia| |]; (eapply P_mono; [apply M; lia|lia]). }
  assert (Hu0 : forall q, 0 <= q < 4 * Q -> P (k + 2) (at_ u q)).
  { intros q Hq. destruct (Z.lt_ge_cases q (2 * Q)) as [C|C].
    - destruct (Vy (2 * Q - 1 - q) ltac:(lia)) as (V1 & _). replace (2 * Q - 1 - (2 * Q - 1 - q)) with q in V1 by lia. rewrite V1. apply Hw. lia.
    - destruct (Vy (q - 2 * Q) ltac:(lia)) as (_ & V1). replace (2 * Q + (q - 2 * Q)) with q in V1 by lia. rewrite V1. apply Hw. lia. }
  destruct (mdct_pre_ok f0 add sub mul opp rot None u Q) as (u2 & E2 & L2 & V2); try (cbn [inp]; lia). rewrite E2. cbn [bind]. cbn [inp] in V2.
  assert (Hu2 : forall j, 0 <= j < 2 * Q -> Pc (k + 3) (cat u2 j)).
  { intros j Hj. rewrite V2 by exact Hj. replace (k + 3) with (k + 2 + 1) by lia. apply pre_grade; [lia|exact Hj|apply GR; lia|exact Hu0]. }
  rewrite <- Ef.
  destruct (fft_grade T a b (k + 3) u2 y ltac:(lia) ltac:(lia) ltac:(lia) S1 GT ltac:(lia) ltac:(lia) ltac:(rewrite Ef; exact Hu2)) as (is1 & cur & other & E3 & Hc & L3a & L3b). rewrite E3. cbn [bind]. rewrite Ef in *.
  assert (Hc' : forall q, 0 <= q < 2 * Q -> Pc (k + 22) (cat cur q)) by (intros q Hq; destruct (Hc q Hq) as (A & B); split; (eapply P_mono; [eassumption|lia])). clear Hc.
  assert (PO : exists y', (if is1 then mdct_post_fft f0 add sub mul rot None cur else mdct_post_fft f0 add sub mul rot (Some cur) other) = Some y' /\ zlen y' = zlen y /\ forall q, 0 <= q < 4 * Q -> P (k + 23) (at_ y' q)).
  { assert (A : forall y', (forall p, 0 <= p < 2 * Q -> let z := cat cur p in let w := znth (r_w rot) p d1 in
        at_ y' (2 * p) = add (mul (snd z) (snd w)) (mul (fst z) (fst w)) /\ at_ y' (2 * (2 * Q) - 1 - 2 * p) = sub (mul (fst z) (snd w)) (mul (snd z) (fst w))) -> forall q, 0 <= q < 4 * Q -> P (k + 23) (at_ y' q)).
    { intros y' V4 q Hq. assert (G : forall p, 0 <= p < 2 * Q -> P (k + 23) (at_ y' (2 * p)) /\ P (k + 23) (at_ y' (2 * (2 * Q) - 1 - 2 * p))).
      { intros p Hp. destruct (V4 p Hp) as (-> & ->). destruct (GR p ltac:(lia)) as (W1 & W2). destruct (Hc' p Hp) as (A & B). split; gr. }
      assert (M : q = 2 * (q / 2) \/ q = 2 * (q / 2) + 1) by (Z.div_mod_to_equations; lia). assert (M2 : 0 <= q / 2 < 2 * Q) by (Z.div_mod_to_equations; lia). destruct M as [M|M].
      - rewrite M. apply G. exact M2.
      - assert (q = 2 * (2 * Q) - 1 - 2 * (2 * Q - 1 - q / 2)) as -> by lia. apply G. lia. }
    destruct is1.
    - destruct (mdct_post_ok f0 add sub mul rot None cur Q) as (y' & E & L & V4); try (cbn [inp]; lia). exists y'. split; [exact E|]. split; [lia|]. apply A. exact V4.
    - destruct (mdct_post_ok f0 add sub mul rot (Some cur) other Q) as (y' & E & L & V4); try (cbn [inp]; lia). exists y'. split; [exact E|]. split; [lia|]. apply A. exact V4. }
  destruct PO as (y' & E4 & L4 & V4). rewrite E4. cbn [bind]. assert (Vd' : forall q, 0 <= q < nd -> P k (at_ d' q)) by (intros q Hq; rewrite Vd by exact Hq; apply Hx; lia). destruct (Z.eqb_spec (2 * (2 * Q)) ns_dst) as [Eq|Eq].
  - cbn [bind]. exists d', y'. split; [reflexivity|]. split; [exact Ld'|]. split; [exact L4|]. split; [exact Vd'|]. intros q Hq. apply V4. lia.
  - destruct (rescale_ok f0 mul y' ns_dst scale (ns_dst / 4)) as (y2 & E5 & L5 & V5); [apply Z.div_pos; lia|Z.div_mod_to_equations; lia|lia|].
    rewrite E5. cbn [bind]. exists d', y2. split; [reflexivity|]. split; [exact Ld'|]. split; [lia|]. split; [exact Vd'|]. intros q Hq. rewrite V5 by lia. destruct (q <? ns_dst); [apply P_mul; [lia| |exact (GS Eq)]|]; apply V4; lia.
Qed.

Lemma inverse_grade T rot win dt sr ns_src scale k src d y buf :
  has_transform dt sr -> shapes T rot win dt sr -> good_fft T -> good_rot rot -> good_win win -> (c_ns dt sr <> ns_src -> Sc scale) ->
  0 <= k <= 40 -> (forall q, 0 <= q < c_ns dt sr -> P k (at_ (inp src y) q)) -> (forall q, 0 <= q < c_nd dt sr -> P (k + 24) (at_ d q)) ->
  c_ns dt sr <= zlen (inp src y) -> c_nd dt sr <= zlen d -> c_ns dt sr <= zlen y -> c_ns dt sr <= zlen buf ->
  exists d' y', mdct_inverse f0 add sub mul opp T rot (c_ns dt sr) (c_nd dt sr) win ns_src scale src d y buf = Some (d', y') /\
    zlen d' = zlen d /\ zlen y' = zlen y /\ (forall q, 0 <= q < c_nd dt sr -> P (k + 24) (at_ d' q)) /\ (forall q, 0 <= q < c_ns dt sr -> P (k + 25) (at_ y' q)).
Proof.
  intros Hc Hs GT GR GW GS Hk Hx Hd Lx Ld Ly Lb. pose proof (cfg_growth dt sr Hc) as Hg. destruct (cfg_ok dt sr Hc) as (Q & HQ & Ha & Hb & EP & Ens & Ef & Hnd & Hu & _).
  unfold shapes in Hs. cbv zeta in Hs. destruct Hs as (S1 & S2 & S3 & S4).
  assert (Hb5 : 0 <= exp2 (c_ns dt sr / 2) <= 5) by (destruct (exp3 (c_ns dt sr / 2) =? 2); lia). clear Hb.
  set (a := exp3 _) in *. set (b := exp2 _) in *. unfold mdct_inverse. rewrite EP in *. rewrite Ens in *. set (nd := c_nd dt sr) in *. clearbody a b nd. clear Hc dt sr Ens.
  destruct (imdct_pre_ok f0 add sub mul opp rot src y Q) as (u & E1 & L1 & V1); try lia. rewrite E1. cbn [bind].
  assert (Hu1 : forall j, 0 <= j < 2 * Q -> Pc (k + 1) (cat u j)).
  { intros j Hj. rewrite V1 by exact Hj. apply ipre_grade; [lia|exact Hj|apply GR; lia|]. intros q Hq. apply Hx. lia. }
  rewrite <- Ef.
  destruct (fft_grade T a b (k + 1) u buf ltac:(lia) ltac:(lia) ltac:(lia) S1 GT ltac:(lia) ltac:(lia) ltac:(rewrite Ef; exact Hu1)) as (is1 & cur & other & E3 & Hc & L3a & L3b). rewrite E3. cbn [bind]. rewrite Ef in *.
  assert (Hc' : forall q, 0 <= q < 2 * Q -> Pc (k + 20) (cat cur q)) by (intros q Hq; destruct (Hc q Hq) as (A & B); split; (eapply P_mono; [eassumption|lia])). clear Hc.
  assert (PO : exists h, (if is1 then imdct_post_fft f0 add sub mul rot None cur else imdct_post_fft f0 add sub mul rot (Some cur) other) = Some h /\ zlen h = zlen buf /\ forall q, 0 <= q < 4 * Q -> P (k + 21) (at_ h q)).
  { assert (A : forall y', (forall p, 0 <= p < 2 * Q -> let z := cat cur p in let w := znth (r_w rot) p d1 in
        at_ y' (2 * p) = sub (mul (fst z) (snd w)) (mul (snd z) (fst w)) /\ at_ y' (2 * (2 * Q) - 1 - 2 * p) = add (mul (fst z) (fst w)) (mul (snd z) (snd w))) -> forall q, 0 <= q < 4 * Q -> P (k + 21) (at_ y' q)).
    { intros y' V4 q Hq. assert (G : forall p, 0 <= p < 2 * Q -> P (k + 21) (at_ y' (2 * p)) /\ P (k + 21) (at_ y' (2 * (2 * Q) - 1 - 2 * p))).
      { intros p Hp. destruct (V4 p Hp) as (-> & ->). destruct (GR p ltac:(lia)) as (W1 & W2). destruct (Hc' p Hp) as (A & B). split; gr. }
      assert (M : q = 2 * (q / 2) \/ q = 2 * (q / 2) + 1) by (Z.div_mod_to_equations; lia). assert (M2 : 0 <= q / 2 < 2 * Q) by (Z.div_mod_to_equations; lia). destruct M as [M|M].
      - rewrite M. apply G. exact M2.
      - assert (q = 2 * (2 * Q) - 1 - 2 * (2 * Q - 1 - q / 2)) as -> by lia. apply G. lia. }
    destruct is1.
    - destruct (imdct_post_ok f0 add sub mul rot None cur Q) as (y' & E & L & V4); try (cbn [inp]; lia). exists y'. split; [exact E|]. split; [lia|]. apply A. exact V4.
    - destruct (imdct_post_ok f0 add sub mul rot (Some cur) other Q) as (y' & E & L & V4); try (cbn [inp]; lia). exists y'. split; [exact E|]. split; [lia|]. apply A. exact V4. }
  destruct PO as (h & E4 & L4 & V4). rewrite E4. cbn [bind].
  assert (RS : exists h2, (if 2 * (2 * Q) =? ns_src then Some h else rescale f0 mul h (2 * (2 * Q)) scale) = Some h2 /\ zlen h2 = zlen buf /\ forall q, 0 <= q < 4 * Q -> P (k + 23) (at_ h2 q)).
  { destruct (Z.eqb_spec (2 * (2 * Q)) ns_src) as [Eq|Eq]; [exists h; split; [reflexivity|]; split; [exact L4|]; intros q Hq; eapply P_mono; [apply V4, Hq|lia]|].
    destruct (rescale_ok f0 mul h (2 * (2 * Q)) scale Q ltac:(lia) ltac:(lia) ltac:(lia)) as (h2 & E5 & L5 & V5). exists h2. split; [exact E5|]. split; [lia|]. intros q Hq. rewrite V5 by lia.
    replace (q <? 2 * (2 * Q)) with true by lia. replace (k + 23) with (k + 21 + 2) by lia. apply P_scale; [lia|apply V4; lia|exact (GS Eq)]. }
  destruct RS as (h2 & E5 & L5 & V5). rewrite E5. cbn [bind].
  destruct (imdct_window_ok f0 add sub mul (2 * Q) nd win h2 d (if is1 then other else cur)) as (d' & y' & E6 & Ld' & Ly' & Vd & Vy); try lia; [exact Hu|exists Q; reflexivity|].
  assert (M : forall n m, 0 <= n < 4 * Q -> 0 <= m < zlen win -> P (k + 24) (mul (at_ h2 n) (at_ win m))) by (intros n m Hn Hm; apply win_; [lia|eapply P_mono; [apply V5, Hn|lia]|apply GW, Hm]).
  exists d', y'. split; [exact E6|]. split; [exact Ld'|]. split; [lia|]. split.
  - intros q Hq. rewrite Vd by exact Hq. unfold iwin_d. apply M; [destruct (q <? nd - 2 * Q) eqn:C; lia|lia].
  - intros q Hq. rewrite Vy by exact Hq. unfold iwin_y. cbv zeta. destruct (q <? nd - 2 * Q) eqn:C1; [|destruct (q <? nd) eqn:C2].
    + apply sub_; [lia|eapply P_mono; [apply Hd; lia|lia]|eapply P_mono; [apply M; lia|lia]].
    + apply add_; [lia|eapply P_mono; [apply Hd; lia|lia]|eapply P_mono; [apply M; lia|lia]].
    + eapply P_mono; [apply M; lia|lia].
Qed.
End Grade.
