(** * Spectral shaping: gain of each coefficient *)
From Coq Require Import ZArith List Bool Lia.
From Verif Require Import Base ConfigModel SideModel SideSpec ShapeTables FloatOps LoopProofs TnsProofs BandModel BandProofs PvqModel PvqProofs SnsModel SnsProofs.
Import ListNotations.
Local Open Scope Z_scope.

Section Shape.
Context {F : Type} (fl : fops F).

(** Interpolation: scale factor of band j of the 64, out of the 16 scale factors s. *)
Definition interp_at (s : Z -> F) (j : Z) : F :=
  let lin a b c := f_add fl a (f_mul fl (f_dy fl c 3) (f_sub fl b a)) in
  if j <? 2 then s 0
  else if j <? 62 then lin (s ((j - 2) / 4)) (s ((j - 2) / 4 + 1)) (2 * ((j - 2) mod 4) + 1)
  else f_add fl (s 15) (f_mul fl (f_dy fl (2 * (j - 62) + 1) 3) (f_sub fl (s 15) (s 14))).

(** From 64 bands to nb. *)
Definition fold_at (nb : Z) (f : Z -> F) (b : Z) : F :=
  let n4 := pad_n4 nb in
  let n2 := pad_n2 nb in
  if b <? n4 then f_mul fl (f_dy fl 1 2) (f_add fl (f_add fl (f_add fl (f (4 * b)) (f (4 * b + 1))) (f (4 * b + 2))) (f (4 * b + 3)))
  else if b <? n4 + n2 then f_mul fl (f_dy fl 1 1) (f_add fl (f (2 * (n4 + b))) (f (2 * (n4 + b) + 1)))
  else f (3 * n4 + n2 + b).

Lemma interpolate_ok junk scf_q inv (q : Z -> F) : (forall i, 0 <= i < 16 -> rd scf_q i = Some (q i)) ->
  exists l, interpolate fl junk scf_q inv = Some l /\ zlen l = 64 /\
    forall j, 0 <= j < 64 -> rd l j = Some (interp_at (fun i => if inv then f_opp fl (q i) else q i) j).
Proof.
  intros H. unfold interpolate. cbv zeta. rewrite (H 0) by lia. cbn [bind]. set (s := fun i => if inv then f_opp fl (q i) else q i).
  change (if inv then f_opp fl (q 0) else q 0) with (s 0).
  rewrite wr_ok by (rewrite zlen_repeat; lia). cbn [bind]. rewrite wr_ok by (rewrite upd_len, zlen_repeat; lia). cbn [bind].
  match goal with |- context [for_ 0 15 ?g ?st] => destruct (for_inv (fun k (t : list F * F * F) => let '(l, s0, s1) := t in zlen l = 64 /\
     (forall j, 0 <= j < 4 * k + 2 -> rd l j = Some (interp_at s j)) /\ s1 = s k /\ (0 < k -> s0 = s (k - 1))) g 0 15 st ltac:(lia)) as (((l & s0) & s1) & E & L & Hl & E1 & E0) end.
  - rewrite !upd_len, zlen_repeat. spl; auto; try lia. intros j Hj. rewrite !rd_upd by (rewrite ?upd_len, zlen_repeat; lia). unfold interp_at.
    destruct (j <? 2) eqn:A; [|lia]. destruct (0 =? j) eqn:B; [reflexivity|]. destruct (1 =? j) eqn:C; [reflexivity|lia].
  - intros i ((l & s0) & s1) Hi (L & Hl & E1 & E0). rewrite (H (i + 1)) by lia. cbn [bind]. change (if inv then f_opp fl (q (i + 1)) else q (i + 1)) with (s (i + 1)).
    rewrite wr_ok by lia. cbn [bind]. rewrite wr_ok by (rewrite ?upd_len; lia). cbn [bind]. rewrite wr_ok by (rewrite ?upd_len; lia). cbn [bind].
    rewrite wr_ok by (rewrite ?upd_len; lia). cbn [bind]. eexists. split; [reflexivity|]. cbv beta iota. rewrite !upd_len. spl; auto.
    + intros j Hj. rewrite !rd_upd by (rewrite ?upd_len; lia). subst s1. 
      assert (K : forall c, j = 4 * i + 2 + c -> 0 <= c < 4 -> Some (f_add fl (s i) (f_mul fl (f_dy fl (2 * c + 1) 3) (f_sub fl (s (i + 1)) (s i)))) = Some (interp_at s j)).
      { intros c -> Hc. unfold interp_at. destruct (4 * i + 2 + c <? 2) eqn:A; [lia|]. destruct (4 * i + 2 + c <? 62) eqn:B; [|lia].
        replace ((4 * i + 2 + c - 2) / 4) with i by (Z.div_mod_to_equations; lia). replace ((4 * i + 2 + c - 2) mod 4) with c by (Z.div_mod_to_equations; lia). reflexivity. }
      destruct (4 * i + 5 =? j) eqn:A3; [apply (K 3); lia|]. destruct (4 * i + 4 =? j) eqn:A2; [apply (K 2); lia|].
      destruct (4 * i + 3 =? j) eqn:A1; [apply (K 1); lia|]. destruct (4 * i + 2 =? j) eqn:A0; [apply (K 0); lia|]. apply Hl. lia.
    + intros _. rewrite E1. f_equal. lia.
  - rewrite E. cbn [bind]. rewrite wr_ok by lia. cbn [bind]. rewrite wr_ok by (rewrite upd_len; lia). eexists. split; [reflexivity|]. split; [rewrite !upd_len; exact L|].
    intros j Hj. rewrite !rd_upd by (rewrite ?upd_len; lia). rewrite E1, (E0 ltac:(lia)). 
    destruct (63 =? j) eqn:A; [|destruct (62 =? j) eqn:B; [|apply Hl; lia]]; unfold interp_at; (destruct (j <? 2) eqn:C; [lia|]); (destruct (j <? 62) eqn:D; [lia|]).
    + replace j with 63 by lia. reflexivity.
    + replace j with 62 by lia. reflexivity.
Qed.

Lemma fold_bands_ok nb (l : list F) (f : Z -> F) : 20 <= nb <= 64 -> zlen l = 64 -> (forall j, 0 <= j < 64 -> rd l j = Some (f j)) ->
  exists l', fold_bands fl nb l = Some l' /\ zlen l' = 64 /\ forall b, 0 <= b < nb -> rd l' b = Some (fold_at nb f b).
Proof.
  intros H L Hl. destruct (pad_facts nb H) as (P1 & P2 & P3 & P4). unfold fold_bands, fold_at. cbv zeta.
  generalize dependent (pad_n4 nb). intros n4. generalize dependent (pad_n2 nb). intros n2 P1 P2 P3 P4.
  set (fa := fun b => if b <? n4 then f_mul fl (f_dy fl 1 2) (f_add fl (f_add fl (f_add fl (f (4 * b)) (f (4 * b + 1))) (f (4 * b + 2))) (f (4 * b + 3)))
    else if b <? n4 + n2 then f_mul fl (f_dy fl 1 1) (f_add fl (f (2 * (n4 + b))) (f (2 * (n4 + b) + 1))) else f (3 * n4 + n2 + b)).
  set (I := fun k l => zlen l = 64 /\ (forall b, 0 <= b < k -> rd l b = Some (fa b)) /\ forall j, k <= j < 64 -> rd l j = Some (f j)).
  assert (Step : forall k l, 0 <= k < 64 -> I k l -> I (k + 1) (upd l k (fa k))).
  { intros k l0 Hk (I1 & I2 & I3). unfold I. rewrite upd_len. spl; [exact I1| |].
    - intros b Hb. rewrite rd_upd by lia. destruct (k =? b) eqn:A; [replace b with k by lia; reflexivity|]. apply I2. lia.
    - intros j Hj. rewrite rd_upd by lia. destruct (k =? j) eqn:A; [lia|]. apply I3. lia. }
  match goal with |- context [for_ 0 n4 ?g ?st] => destruct (for_inv I g 0 n4 st ltac:(lia)) as (l1 & E1 & H1) end.
  { unfold I. spl; auto. intros; lia. }
  { intros i l0 Hi HI. pose proof HI as (I1 & I2 & I3). rewrite (I3 (4 * i)), (I3 (4 * i + 1)), (I3 (4 * i + 2)), (I3 (4 * i + 3)) by lia. cbn [bind]. rewrite wr_ok by lia.
    eexists. split; [reflexivity|]. specialize (Step i l0 ltac:(lia) HI). unfold fa in Step at 1. destruct (i <? n4) eqn:A; [exact Step|lia]. }
  rewrite E1. cbn [bind].
  match goal with |- context [for_ n4 (n4 + n2) ?g ?st] => destruct (for_inv I g n4 (n4 + n2) st ltac:(lia) H1) as (l2 & E2 & H2) end.
  { intros i l0 Hi HI. pose proof HI as (I1 & I2 & I3). rewrite (I3 (2 * (n4 + i))), (I3 (2 * (n4 + i) + 1)) by lia. cbn [bind]. rewrite wr_ok by lia.
    eexists. split; [reflexivity|]. specialize (Step i l0 ltac:(lia) HI). unfold fa in Step at 1. destruct (i <? n4) eqn:A; [lia|]. destruct (i <? n4 + n2) eqn:B; [exact Step|lia]. }
  rewrite E2. cbn [bind].
  match goal with |- context [for_ 0 (nb - n4 - n2) ?g ?st] => destruct (for_inv (fun k => I (n4 + n2 + k)) g 0 (nb - n4 - n2) st ltac:(lia)) as (l3 & E3 & H3) end.
  { rewrite Z.add_0_r. exact H2. }
  { intros i l0 Hi HI. pose proof HI as (I1 & I2 & I3). rewrite (I3 (4 * n4 + 2 * n2 + i)) by lia. cbn [bind]. rewrite wr_ok by lia.
    eexists. split; [reflexivity|]. specialize (Step (n4 + n2 + i) l0 ltac:(lia) HI). unfold fa in Step at 1. destruct (n4 + n2 + i <? n4) eqn:A; [lia|].
    destruct (n4 + n2 + i <? n4 + n2) eqn:B; [lia|]. replace (n4 + n2 + (i + 1)) with (n4 + n2 + i + 1) by lia. replace (4 * n4 + 2 * n2 + i) with (3 * n4 + n2 + (n4 + n2 + i)) by lia. exact Step. }
  rewrite E3. exists l3. destruct H3 as (I1 & I2 & _). spl; auto. intros b Hb. apply I2. lia.
Qed.

(** The gain of a band out of its scale factor. *)
Definition band_gain (s : F) : F := f_exp2 fl (f_opp fl s).

Lemma shape_bands_ok dt sr scf (s : Z -> F) x y : tns_cfg dt sr -> (forall b, 0 <= b < num_bands dt sr -> rd scf b = Some (s b)) ->
  c_ne dt sr <= zlen x -> c_ne dt sr <= zlen y ->
  exists y', shape_bands fl dt sr scf x y = Some y' /\ zlen y' = zlen y /\
    (forall b lo hi i v, 0 <= b < num_bands dt sr -> rd (lim_of dt sr) b = Some lo -> rd (lim_of dt sr) (b + 1) = Some hi -> lo <= i < hi ->
       rd x i = Some v -> rd y' i = Some (f_mul fl v (band_gain (s b)))) /\
    (forall i, i < 0 \/ c_ne dt sr <= i -> rd y' i = rd y i).
Proof.
  intros C Hs Lx Ly. destruct (lim_ok dt sr C) as (Hn & Hl & R0 & Rn & Hb). unfold shape_bands.
  revert Hs Lx Ly Hn Hl R0 Rn Hb. generalize (num_bands dt sr) (lim_of dt sr) (c_ne dt sr). intros nb lim ne Hs Lx Ly Hn Hl R0 Rn Hb.
  match goal with |- context [for_ 0 nb ?g ?st] => destruct (for_inv (fun k (t : Z * list F) => let '(i, y') := t in rd lim k = Some i /\ zlen y' = zlen y /\
    (forall b lo hi i v, 0 <= b < k -> rd lim b = Some lo -> rd lim (b + 1) = Some hi -> lo <= i < hi -> rd x i = Some v -> rd y' i = Some (f_mul fl v (band_gain (s b)))) /\
    (forall j, j < 0 \/ i <= j -> rd y' j = rd y j)) g 0 nb st ltac:(lia)) as ((i & y') & E & H1 & H2 & H3 & H4) end.
  - spl; auto. intros; lia.
  - intros ib (i & y') Hi (H1 & H2 & H3 & H4). rewrite (Hs ib Hi). cbn [bind]. cbv zeta. fold (band_gain (s ib)). destruct (Hb ib Hi) as (lo & hi & A1 & A2 & A3 & A4).
    rewrite H1 in A1. injection A1 as <-. rewrite A2. cbn [bind].
    match goal with |- context [for_ i hi ?g ?st] => destruct (for_inv (fun k y2 => zlen y2 = zlen y /\ (forall j, j < i \/ k <= j -> rd y2 j = rd y' j) /\
      forall j v, i <= j < k -> rd x j = Some v -> rd y2 j = Some (f_mul fl v (band_gain (s ib)))) g i hi st ltac:(lia)) as (y2 & E2 & B1 & B2 & B3) end.
    + spl; auto. intros; lia.
    + intros k y2 Hk (B1 & B2 & B3). destruct (rd_ok x k ltac:(lia)) as (v & Ev). rewrite Ev. cbn [bind]. rewrite wr_ok by lia. eexists. split; [reflexivity|]. rewrite upd_len. spl; auto.
      * intros j Hj. rewrite rd_upd by lia. destruct (k =? j) eqn:D; [lia|]. apply B2. lia.
      * intros j w Hj Hw. rewrite rd_upd by lia. destruct (k =? j) eqn:D; [replace j with k in Hw by lia; congruence|]. apply B3; auto. lia.
    + rewrite E2. cbn [bind]. eexists. split; [reflexivity|]. cbv beta iota. rewrite Z.max_r by lia. spl; auto.
      * intros b lo' hi' j v Hb' C1 C2 C3 C4. destruct (Z.eq_dec b ib) as [->|N].
        -- rewrite H1 in C1. rewrite A2 in C2. injection C1 as <-. injection C2 as <-. apply B3; auto.
        -- rewrite B2.
           ++ apply (H3 b lo' hi' j v); auto. lia.
           ++ left. enough (hi' <= i) by lia.
              assert (M : forall n a u w, 0 <= a -> a + Z.of_nat n <= nb -> rd lim a = Some u -> rd lim (a + Z.of_nat n) = Some w -> u <= w).
              { clear - Hb. induction n as [|n IH]; intros a u w Ha Hn Hu Hw; [rewrite Z.add_0_r in Hw; rewrite Hu in Hw; injection Hw as ->; lia|].
                destruct (Hb a ltac:(lia)) as (l0 & h0 & E1 & E2 & E3 & _). rewrite Hu in E1. injection E1 as <-. specialize (IH (a + 1) h0 w ltac:(lia) ltac:(lia) E2).
                replace (a + 1 + Z.of_nat n) with (a + Z.of_nat (S n)) in IH by lia. specialize (IH Hw). lia. }
              apply (M (Z.to_nat (ib - (b + 1))) (b + 1)); auto; try lia. replace (b + 1 + Z.of_nat (Z.to_nat (ib - (b + 1)))) with ib by lia. exact H1.
      * intros j Hj. rewrite B2 by lia. apply H4. lia.
  - rewrite E. cbn [bind snd]. exists y'. rewrite Rn in H1. injection H1 as <-. spl; auto.
Qed.

(** Scale factor of a band of the frame. *)
Definition band_scf (nb : Z) (q : Z -> F) (inv : bool) (b : Z) : F :=
  fold_at nb (interp_at (fun i => if inv then f_opp fl (q i) else q i)) b.

Lemma spectral_shaping_ok junk dt sr scf_q (q : Z -> F) inv x y : tns_cfg dt sr -> (forall i, 0 <= i < 16 -> rd scf_q i = Some (q i)) ->
  c_ne dt sr <= zlen x -> c_ne dt sr <= zlen y ->
  exists y', spectral_shaping fl junk dt sr scf_q inv x y = Some y' /\ zlen y' = zlen y /\
    (forall b lo hi i v, 0 <= b < num_bands dt sr -> rd (lim_of dt sr) b = Some lo -> rd (lim_of dt sr) (b + 1) = Some hi -> lo <= i < hi ->
       rd x i = Some v -> rd y' i = Some (f_mul fl v (band_gain (band_scf (num_bands dt sr) q inv b)))) /\
    (forall i, i < 0 \/ c_ne dt sr <= i -> rd y' i = rd y i).
Proof.
  intros C Hq Lx Ly. destruct (lim_ok dt sr C) as (Hn & _). unfold MAX_BANDS in Hn. unfold spectral_shaping.
  destruct (interpolate_ok junk scf_q inv q Hq) as (l & -> & L & Hl). cbn [bind].
  destruct (fold_bands_ok (num_bands dt sr) l _ Hn L Hl) as (l' & -> & L' & Hl'). cbn [bind].
  exact (shape_bands_ok dt sr l' _ x y C Hl' Lx Ly).
Qed.

(** Each coefficient is in a band. *)
Lemma coef_band dt sr i : tns_cfg dt sr -> 0 <= i < c_ne dt sr ->
  exists b lo hi, 0 <= b < num_bands dt sr /\ rd (lim_of dt sr) b = Some lo /\ rd (lim_of dt sr) (b + 1) = Some hi /\ lo <= i < hi.
Proof.
  intros C Hi. destruct (lim_ok dt sr C) as (Hn & Hl & R0 & Rn & Hb). revert Hn Hl R0 Rn Hb. generalize (num_bands dt sr) (lim_of dt sr). intros nb lim Hn Hl R0 Rn Hb.
  assert (A : forall n, Z.of_nat n <= nb -> (exists b lo hi, 0 <= b < nb /\ rd lim b = Some lo /\ rd lim (b + 1) = Some hi /\ lo <= i < hi) \/ exists a, rd lim (Z.of_nat n) = Some a /\ a <= i).
  { induction n as [|n IH]; intros H; [right; exists 0; split; [exact R0|lia]|]. destruct IH as [IH|(a & Ea & Ha)]; [lia|left; exact IH|].
    destruct (Hb (Z.of_nat n) ltac:(lia)) as (lo & hi & A1 & A2 & A3 & A4). rewrite Ea in A1. injection A1 as <-. destruct (Z_lt_le_dec i hi) as [K|K].
    - left. exists (Z.of_nat n), a, hi. spl; auto; lia.
    - right. exists hi. split; [|exact K]. rewrite <- A2. f_equal. lia. }
  destruct (A (Z.to_nat nb) ltac:(lia)) as [B|(a & Ea & Ha)]; [exact B|]. rewrite Z2Nat.id in Ea by lia. rewrite Rn in Ea. injection Ea as <-. lia.
Qed.

Lemma spectral_shaping_junk junk junk' dt sr scf_q inv x y : tns_cfg dt sr -> zlen scf_q = 16 ->
  c_ne dt sr <= zlen x -> c_ne dt sr <= zlen y ->
  spectral_shaping fl junk dt sr scf_q inv x y = spectral_shaping fl junk' dt sr scf_q inv x y.
Proof.
  intros C Lq Lx Ly. assert (Hq : forall i, 0 <= i < 16 -> rd scf_q i = Some (nth (Z.to_nat i) scf_q junk)) by (intros i Hi; apply rd_nth; lia).
  destruct (spectral_shaping_ok junk dt sr scf_q (fun i => nth (Z.to_nat i) scf_q junk) inv x y C Hq Lx Ly) as (y1 & -> & L1 & H1 & G1).
  destruct (spectral_shaping_ok junk' dt sr scf_q (fun i => nth (Z.to_nat i) scf_q junk) inv x y C Hq Lx Ly) as (y2 & -> & L2 & H2 & G2).
  f_equal. apply rd_ext; [lia|]. intros i Hi. destruct (Z_lt_le_dec i (c_ne dt sr)) as [K|K].
  - destruct (coef_band dt sr i C ltac:(lia)) as (b & lo & hi & B1 & B2 & B3 & B4). destruct (rd_ok x i ltac:(lia)) as (v & Ev).
    rewrite (H1 b lo hi i v), (H2 b lo hi i v) by assumption. reflexivity.
  - rewrite G1, G2 by lia. reflexivity.
Qed.
End Shape.
