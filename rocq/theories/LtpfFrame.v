(** * Frames of the long term postfilter *)
From Coq Require Import ZArith List Bool Lia.
From Verif Require Import Base BaseProofs ConfigModel SideModel LtpfModel LtpfSpec LtpfProofs.
Import ListNotations.
Local Open Scope Z_scope.

Section floats.
  Context {F : Type} (zero : F) (add sub mul div : F -> F -> F) (ofz : Z -> F).
  Context (k04 k005 k085 : F) (cden cnum : list (list (list F))) (den num : Z -> Z -> Z -> F).

  (** The list [l] of lists holds the table [f]. *)
  Definition table (l : list (list (list F))) (f : Z -> Z -> Z -> F) : Prop :=
    forall s r k, 0 <= s < 5 -> 0 <= r < 4 -> 0 <= k < width (rate_hz s) ->
      (do rows <- rd l s; do row <- rd rows r; rd row k) = Some (f s r k).
  Context (Hden : table cden den) (Hnum : table cnum num).

  Lemma table_rd l f s r k (B : Type) (e : F -> option B) : table l f ->
    0 <= s < 5 -> 0 <= r < 4 -> 0 <= k < width (rate_hz s) ->
    (do rows <- rd l s; do row <- rd rows r; do d <- rd row k; e d) = e (f s r k).
  Proof.
    intros H Hs Hr Hk. specialize (H s r k Hs Hr Hk). destruct (rd l s) as [rows|]; [|discriminate]. cbn [bind] in *.
    destruct (rd rows r) as [row|]; [|discriminate]. cbn [bind] in *. rewrite H. reflexivity.
  Qed.

  Lemma land3 a : Z.land a 3 = a mod 4.
  Proof. change 3 with (Z.ones 2). apply Z.land_ones. lia. Qed.

  Lemma coefs_ok n : forall sr w pitch g_idx active i c,
    0 <= sr < 5 -> w = width (rate_hz sr) -> 0 <= g_idx -> 0 <= i -> i + Z.of_nat n = w -> 2 * w <= zlen c ->
    let g := if active : bool then sub k04 (mul k005 (ofz g_idx)) else zero in
    exists c', coefs zero sub mul ofz k04 k005 k085 cden cnum n sr w pitch g_idx active i c = Some c' /\ zlen c' = zlen c /\
      (forall k, i <= k < w -> rd c' k = Some (mul g (den sr (pitch mod 4) (w - 1 - k))) /\
                 rd c' (w + k) = Some (mul (mul k085 g) (num sr (Z.min g_idx 3) (w - 1 - k)))) /\
      (forall k, 0 <= k < i -> rd c' k = rd c k /\ rd c' (w + k) = rd c (w + k)).
  Proof.
    induction n as [|n IH]; intros sr w pitch g_idx active i c Hs Hw Hg Hi Hn Hc g.
    - exists c. cbn [coefs]. repeat split; auto; lia.
    - cbn [coefs]. fold g. rewrite land3.
      erewrite (table_rd cden den); [|exact Hden|exact Hs|apply Z.mod_pos_bound; lia|rewrite <- Hw; lia].
      rewrite wr_in by lia. cbn [bind].
      erewrite (table_rd cnum num); [|exact Hnum|exact Hs|lia|rewrite <- Hw; lia].
      rewrite wr_in by (rewrite zlen_upd; lia). cbn [bind].
      destruct (IH sr w pitch g_idx active (i + 1) (upd (upd c i (mul g (den sr (pitch mod 4) (w - 1 - i)))) (w + i)
        (mul (mul k085 g) (num sr (Z.min g_idx 3) (w - 1 - i))))) as (c' & E & L & V & O); auto; try lia.
      { rewrite !zlen_upd. lia. }
      rewrite !zlen_upd in L. exists c'. split; [exact E|]. split; [exact L|]. split.
      + intros k Hk. destruct (Z.eq_dec k i) as [->|Nk]; [|apply V; lia].
        destruct (O i ltac:(lia)) as (O1 & O2). rewrite O1, O2. split.
        * rewrite rd_upd_other by lia. apply rd_upd_same. lia.
        * apply rd_upd_same. rewrite zlen_upd. lia.
      + intros k Hk. destruct (O k ltac:(lia)) as (O1 & O2). rewrite O1, O2.
        rewrite !rd_upd_other by lia. auto.
  Qed.

  (** The memory holds the stream [y] from [lo] to [mid]; [o] is the position of time 0. *)
  Definition holds (mem : list F) (R o : Z) (lo hi : Z) (y : Z -> F) : Prop :=
    forall t, lo <= t < hi -> rd mem ((t + o) mod R) = Some (y t).

  Local Notation filtered := (filtered zero add sub mul).
  Local Notation taps := (taps zero add sub mul).

  Lemma taps_shift n o w lag cf (x y : Z -> F) t :
    taps n w lag cf (fun s => y (s - o)) (fun s => x (s - o)) (t + o) = taps n w lag cf y x t.
  Proof. induction n as [|n IH]; [reflexivity|]. rewrite !taps_S, IH. cbv beta.
    replace (t + o - lag + Z.of_nat n - o) with (t - lag + Z.of_nat n) by lia.
    replace (t + o - (w - 1) + Z.of_nat n - o) with (t - (w - 1) + Z.of_nat n) by lia. reflexivity. Qed.
  Lemma filtered_shift n o T w lag cf g d (x y : Z -> F) s :
    filtered n (T + o) w lag cf g d (fun s => x (s - o)) (fun s => y (s - o)) s =
    filtered n T w lag cf g d x y (s - o).
  Proof.
    revert s. induction n as [|n IH]; intros s; [reflexivity|]. cbn [LtpfSpec.filtered]. cbv zeta.
    replace (T + o + Z.of_nat n) with (T + Z.of_nat n + o) by lia.
    destruct (Z.eqb_spec s (T + Z.of_nat n + o)), (Z.eqb_spec (s - o) (T + Z.of_nat n)); try lia; [|apply IH].
    f_equal; [f_equal; lia|]. f_equal. rewrite <- (taps_shift (Z.to_nat w) o w lag cf x (filtered n T w lag cf g d x y) (T + Z.of_nat n)). apply taps_ext. intros k _. apply IH.
  Qed.
  Local Notation template := (synthesize_template zero add sub mul div ofz).

  Lemma section_ok u0 mem R lag0 x0m x0p px n c cf w fade o T lo hi (x xo y : Z -> F) :
    let lag := lag0 + w / 2 in
    let H := filtered (Z.to_nat n) T w lag cf (ofz (b2z (fade <=? 0)))
                 (div (ofz (b2z (0 <? fade) - b2z (fade <? 0))) (ofz n)) x y in
    0 < R <= zlen mem -> 0 < w -> 0 <= n -> n mod w = 0 -> w <= lag -> lo <= T - lag -> hi - lo <= R -> T + n <= hi ->
    px = (T + o) mod R -> px + n <= R -> w <= zlen u0 ->
    (forall k, 0 <= k < 2 * w -> rd c k = Some (cf k)) ->
    (forall i, 0 <= i < w - 1 -> rd x0m (x0p + i) = Some (x (T - (w - 1) + i))) ->
    holds mem R o lo T y -> holds mem R o T (T + n) x -> holds mem R o (T + n) hi xo ->
    exists mem', template u0 mem 0 R lag0 x0m x0p px n c w fade = Some mem' /\
      zlen mem' = zlen mem /\ holds mem' R o lo (T + n) H /\ holds mem' R o (T + n) hi xo /\
      (forall p, p < px \/ px + n <= p -> rd mem' p = rd mem p).
  Proof.
    intros lag H HR Hw Hn Hnw Hlag Hlo Hhi HT Hpx Hpn Hu Hc Hx0 Hy Hx Ho.
    destruct (template_ok zero add sub mul div ofz u0 mem R lag0 x0m x0p px n c cf w fade (T + o) (lo + o) (hi + o)
      (fun s => x (s - o)) (fun s => y (s - o))) as (mem' & E & L & V & O); auto; try lia.
    { intros i Hi. rewrite Hx0 by lia. do 2 f_equal. lia. }
    { intros t Ht. rewrite <- Hy by lia. do 2 f_equal. lia. }
    { intros t Ht. rewrite <- Hx by lia. do 2 f_equal. lia. }
    exists mem'. split; [exact E|]. split; [exact L|].
    pose proof (Z.div_mod (T + o) R ltac:(lia)) as ET. pose proof (Z.mod_pos_bound (T + o) R ltac:(lia)) as HTR.
    assert (Hin : forall d, 0 <= d < n -> (T + d + o) mod R = px + d).
    { intros d Hd. symmetry. apply Z.mod_unique with ((T + o) / R); [left|]; lia. }
    assert (Hout : forall t, lo <= t < hi -> ~ T <= t < T + n -> rd mem' ((t + o) mod R) = rd mem ((t + o) mod R)).
    { intros t Ht Hnt. apply O. pose proof (Z.mod_pos_bound (t + o) R ltac:(lia)).
      destruct (Z.lt_ge_cases ((t + o) mod R) px); [lia|]. destruct (Z.lt_ge_cases ((t + o) mod R) (px + n)); [|lia].
      assert (E2 : (t + o) mod R = (T + ((t + o) mod R - px) + o) mod R) by (rewrite Hin; lia).
      apply mod_inj in E2; lia. }
    split; [|split; [|exact O]].
    - intros t Ht. destruct (Z.lt_ge_cases t T).
      + rewrite Hout by lia. unfold H. rewrite filtered_out by lia. apply Hy. lia.
      + replace t with (T + (t - T)) at 1 by lia. rewrite Hin by lia. rewrite V by lia. f_equal. rewrite filtered_shift.
        unfold H. f_equal. lia.
    - intros t Ht. rewrite Hout by lia. apply Ho. lia.
  Qed.

  (** ** A frame *)
  Local Notation params := (@params F).
  Local Notation synth := (ltpf_synthesize zero add sub mul div ofz k04 k005 k085 cden cnum).
  Local Notation frame := (frame zero add sub mul div ofz).
  Local Notation frame_params := (frame_params zero sub mul ofz k04 k005 k085 den num).

  Definition spec_data (d : option ltpf_data) : option (bool * Z) :=
    match d with Some d => Some (negb (l_active d =? 0), l_pitch d) | None => None end.

  Record inv (R o nh w T : Z) (p : params) (x y : Z -> F) (st : @ltpf_state F) (mem : list F) : Prop := {
    i_len : R <= zlen mem; i_tx : zlen (t_x st) = 12; i_tc : zlen (t_c st) = 24;
    i_y : holds mem R o (T - nh) T y;
    i_x : forall i, 0 <= i < w - 1 -> rd (t_x st) i = Some (x (T - (w - 1) + i));
    i_act : t_active st = f_active p;
    i_par : f_active p = true -> t_pitch st = f_lag p /\ 0 <= f_lag p /\ w <= f_lag p / 4 + w / 2 <= nh /\
            forall k, 0 <= k < 2 * w -> rd (t_c st) k = Some (f_coef p k) }.

  Lemma frame_ok c0 u0 dt sr nbytes data st mem ns nt nh w hz o T p (x y : Z -> F) :
    geometry dt sr ns nt nh w hz -> 0 <= dt < 4 -> 0 <= sr < 5 -> zlen c0 = 48 -> zlen u0 = 24 ->
    - 10000000 <= nbytes <= 10000000 -> (forall d, data = Some d -> 0 <= l_pitch d < 512) ->
    (T + o) mod ns = 0 ->
    let R := ns + nh in let px := (T + o) mod R in
    let q := frame_params (1 + dt) sr hz nbytes (spec_data data) in
    let y' := frame ns nt w T p q x y in
    inv R o nh w T p x y st mem -> holds mem R o T (T + ns) x ->
    exists mem' st', synth c0 u0 dt sr nbytes st data mem 0 px = Some (mem', st') /\
      inv R o nh w (T + ns) q x y' st' mem' /\ zlen mem' = zlen mem /\ holds mem' R o (T - nh) (T + ns) y' /\
      (forall p, p < px \/ px + ns <= p -> rd mem' p = rd mem p).
  Proof.
    intros G Hdt Hsr Hc0 Hu0 Hnb Hdata HTns R px q y' I Hx.
    pose proof (g_w0 _ _ _ _ _ _ _ G) as Hw. pose proof (g_wt _ _ _ _ _ _ _ G) as Hwt. pose proof (g_nh0 _ _ _ _ _ _ _ G) as Hnh.
    pose proof (g_ntw _ _ _ _ _ _ _ G) as Hntw. pose proof (g_nsw _ _ _ _ _ _ _ G) as Hnsw.
    assert (HR : 0 < R) by lia.
    pose proof (Z.mod_pos_bound (T + o) R HR) as Hpx. fold px in Hpx.
    assert (Hpn : px mod ns = 0 /\ px + ns <= R).
    { pose proof (g_div _ _ _ _ _ _ _ G) as Gd. apply Z.mod_divide in Gd; [|lia]. destruct Gd as (a & Ea).
      apply Z.mod_divide in HTns; [|lia]. destruct HTns as (b & Eb).
      pose proof (Z.div_mod (T + o) R ltac:(lia)) as ET. fold px in ET.
      assert (Ep : px = (b - (a + 1) * ((T + o) / R)) * ns) by (unfold R in *; nia).
      split; [rewrite Ep; apply Z.mod_mul; lia|].
      assert (b - (a + 1) * ((T + o) / R) < a + 1) by (unfold R in *; nia). unfold R. nia. }
    destruct Hpn as (Hpm & Hpn).
    destruct I as [Ilen Itx Itc Iy Ix Iact Ipar].
    (* parameters *)
    set (i := match data with Some d => l_pitch d | None => 0 end).
    assert (Hi : 0 <= i < 512) by (unfold i; destruct data as [d|]; [apply Hdata; reflexivity|lia]).
    destruct (scaled_pitch_ok _ _ _ _ _ _ _ i G Hi) as (Esp & Hl0 & Hl1).
    pose proof (gain_index_ok dt sr nbytes Hdt Hsr Hnb) as Egi.
    set (l := gain_level (1 + dt) sr nbytes) in *.
    assert (Hl : 0 <= l) by (unfold l, gain_level; cbv zeta; apply Z.le_max_l).
    unfold ltpf_synthesize. fold i. rewrite Esp. cbn [bind]. rewrite Egi. cbn [bind].
    rewrite (g_w _ _ _ _ _ _ _ G), (g_ns _ _ _ _ _ _ _ G), (g_nh _ _ _ _ _ _ _ G), (g_nt _ _ _ _ _ _ _ G), (g_fw _ _ _ _ _ _ _ G).
    fold R. set (A := match data with Some d => negb (l_active d =? 0) && (l <? 4) | None => false end).
    assert (EA : f_active q = A).
    { unfold q, A, LtpfSpec.frame_params, spec_data. fold l. destruct data as [d|]; [|reflexivity].
      destruct (negb (l_active d =? 0)); reflexivity. }
    destruct (coefs_ok (Z.to_nat w) sr w (lag_at hz i) l A 0 c0) as (c & Ec & Lc & Vc & _); auto; try lia.
    { rewrite (g_hz _ _ _ _ _ _ _ G). symmetry. apply (g_width _ _ _ _ _ _ _ G). }
    rewrite Ec. cbn [bind].
    assert (Hq : A = true -> f_lag q = lag_at hz i /\ forall k, 0 <= k < 2 * w -> rd c k = Some (f_coef q k)).
    { intros EA1. rewrite EA1 in Vc. unfold q, LtpfSpec.frame_params, spec_data. fold l.
      rewrite (g_width _ _ _ _ _ _ _ G). unfold A, i in *. destruct data as [d|]; [|discriminate].
      destruct (negb (l_active d =? 0)); [|discriminate]. cbn [f_lag f_coef]. split; [reflexivity|].
      intros k Hk. destruct (Z.ltb_spec k w).
      - apply Vc. lia.
      - replace k with (w + (k - w)) at 1 by lia. apply Vc. lia. }
    clearbody A l. clear Vc.
    destruct (rdn_ok (t_x st) 0 (w - 1)) as (x00 & E1 & L1 & V1); try lia. rewrite E1. cbn [bind].
    destruct (rdn_ok mem (px + ns - (w - 1)) (w - 1)) as (xs & E2 & L2 & V2); try lia. rewrite E2. cbn [bind].
    destruct (put_head_ok (t_x st) xs) as (tx & E3 & L3 & V3); try lia. rewrite E3. cbn [bind].
    assert (Hpos : forall d, 0 <= d < ns -> (T + d + o) mod R = px + d).
    { intros d Hd. pose proof (Z.div_mod (T + o) R ltac:(lia)). symmetry. apply Z.mod_unique with ((T + o) / R); [left|]; unfold px in *; lia. }
    assert (Hx01 : exists x01, (if A then rdn mem (px + nt - (w - 1)) (w - 1) else Some []) = Some x01 /\
      (A = true -> forall j, 0 <= j < w - 1 -> rd x01 j = Some (x (T + nt - (w - 1) + j)))).
    { destruct A; [|exists []; split; [reflexivity|discriminate]].
      destruct (rdn_ok mem (px + nt - (w - 1)) (w - 1)) as (v & Ev & Lv & Vv); try lia.
      exists v. split; [exact Ev|]. intros _ j Hj. rewrite Vv by lia.
      replace (px + nt - (w - 1) + j) with (px + (nt - (w - 1) + j)) by lia. rewrite <- Hpos by lia. rewrite Hx by lia.
      do 2 f_equal. lia. }
    destruct Hx01 as (x01 & E4 & V4). rewrite E4. cbn [bind].
    assert (V1' : forall j, 0 <= j < w - 1 -> rd x00 (0 + j) = Some (x (T - (w - 1) + j))).
    { intros j Hj. rewrite Z.add_0_l, V1 by lia. rewrite Z.add_0_l. apply Ix. lia. }
    (* first section *)
    set (y1 := match f_active p, f_active q with
      | false, true => fade_in zero add sub mul div ofz nt T w q x y
      | true, false => fade_out zero add sub mul div ofz nt T w p x y
      | true, true =>
          if f_lag p =? f_lag q then constant zero add sub mul div ofz nt T w q x y
          else fade_in zero add sub mul div ofz nt T w q (fade_out zero add sub mul div ofz nt T w p x y) y
      | false, false => copied nt T x y
      end).
    match goal with |- exists mem' st', (do mem1 <- ?e; _) = _ /\ _ => assert (S1 : exists mem1, e = Some mem1 /\ zlen mem1 = zlen mem /\
      holds mem1 R o (T - nh) (T + nt) y1 /\ holds mem1 R o (T + nt) (T + ns) x /\
      (forall p, p < px \/ px + nt <= p -> rd mem1 p = rd mem p)) end.
    { assert (Hfo : f_active p = true -> exists mem1, template u0 mem 0 R (Z.quot (t_pitch st) 4) x00 0 px nt (t_c st) w (-1) = Some mem1 /\
        zlen mem1 = zlen mem /\
        holds mem1 R o (T - nh) (T + nt) (fade_out zero add sub mul div ofz nt T w p x y) /\
        holds mem1 R o (T + nt) (T + ns) x /\ (forall p, p < px \/ px + nt <= p -> rd mem1 p = rd mem p)).
      { intros Ep. destruct (Ipar Ep) as (P1 & P2 & P3 & P4). rewrite P1, Z.quot_div_nonneg by lia.
        refine (section_ok u0 mem R (f_lag p / 4) x00 0 px nt (t_c st) (f_coef p) w (-1) o T (T - nh) (T + ns) x x y
          _ _ _ _ _ _ _ _ _ _ _ _ _ _ _ _); auto; try lia; intros t Ht; apply Hx; lia. }
      unfold y1. rewrite Iact. rewrite EA. destruct (f_active p) eqn:Ep, A eqn:EA'; cbn [negb andb].
      - destruct (Ipar eq_refl) as (P1 & P2 & P3 & P4). destruct (Hq eq_refl) as (Q1 & Q2). rewrite P1, Q1.
        destruct (Z.eqb_spec (f_lag p) (lag_at hz i)) as [El|Nl].
        + rewrite Z.quot_div_nonneg by lia. unfold constant. rewrite Q1.
          refine (section_ok u0 mem R (lag_at hz i / 4) x00 0 px nt c (f_coef q) w 0 o T (T - nh) (T + ns) x x y
            _ _ _ _ _ _ _ _ _ _ _ _ _ _ _ _); auto; try lia; intros t Ht; apply Hx; lia.
        + destruct (Hfo eq_refl) as (m1 & F1 & F2 & F3 & F4 & F5). rewrite P1 in F1. rewrite F1. cbn [bind].
          rewrite (Z.quot_div_nonneg (lag_at hz i)) by lia. unfold fade_in. rewrite Q1.
          set (fo := fade_out zero add sub mul div ofz nt T w p x y) in *.
          assert (Hfy : forall t, t < T -> fo t = y t) by (intros t Ht; apply filtered_out; lia).
          destruct (section_ok u0 m1 R (lag_at hz i / 4) m1 ((if px <=? 0 then px + R else px) - (w - 1)) px nt c (f_coef q) w 1
            o T (T - nh) (T + ns) fo x y) as (m2 & J1 & J2 & J3 & J4 & J5); auto; try lia.
          { intros j Hj. replace ((if px <=? 0 then px + R else px) - (w - 1) + j) with ((T - (w - 1) + j + o) mod R).
            { rewrite F3 by lia. reflexivity. }
            pose proof (Z.div_mod (T + o) R ltac:(lia)) as ET. fold px in ET.
            destruct (Z.leb_spec px 0).
            - symmetry. apply Z.mod_unique with ((T + o) / R - 1); [left|]; lia.
            - assert (ns <= px).
              { apply Z.mod_divide in Hpm; [|lia]. destruct Hpm as (a & Ea). assert (1 <= a) by nia. nia. }
              symmetry. apply Z.mod_unique with ((T + o) / R); [left|]; lia. }
          { intros t Ht. rewrite <- Hfy by lia. apply F3. lia. }
          { intros t Ht. apply F3. lia. }
          exists m2. split; [exact J1|]. split; [lia|]. split; [exact J3|]. split; [exact J4|].
          intros a Ha. rewrite J5, F5; auto.
      - apply Hfo. reflexivity.
      - destruct (Hq eq_refl) as (Q1 & Q2). rewrite Z.quot_div_nonneg by lia. unfold fade_in. rewrite Q1.
          refine (section_ok u0 mem R (lag_at hz i / 4) x00 0 px nt c (f_coef q) w 1 o T (T - nh) (T + ns) x x y
            _ _ _ _ _ _ _ _ _ _ _ _ _ _ _ _); auto; try lia; intros t Ht; apply Hx; lia.
      - exists mem. split; [reflexivity|]. split; [reflexivity|]. repeat split; auto.
        + intros t Ht. unfold copied. destruct (Z.leb_spec T t), (Z.ltb_spec t (T + nt)); cbn [andb]; try lia;
            [apply Hx|apply Iy]; lia.
        + intros t Ht. apply Hx. lia. }
    destruct S1 as (mem1 & S1 & L5 & Y1 & X1 & O1). rewrite S1. cbn [bind]. clear S1.
    set (y2 := if f_active q then constant zero add sub mul div ofz (ns - nt) (T + nt) w q x y1 else copied (ns - nt) (T + nt) x y1).
    assert (E5 : y' = y2) by reflexivity. clearbody y'. subst y'.
    match goal with |- exists mem' st', (do mem1 <- ?e; _) = _ /\ _ => assert (S2 : exists mem2, e = Some mem2 /\ zlen mem2 = zlen mem /\
      holds mem2 R o (T - nh) (T + ns) y2 /\
      (forall p, p < px \/ px + ns <= p -> rd mem2 p = rd mem p)) end.
    { unfold y2. rewrite EA. destruct A eqn:EA'; cbn [andb].
      - destruct (Hq eq_refl) as (Q1 & Q2). destruct (Z.ltb_spec nt ns).
        + rewrite Z.quot_div_nonneg by lia. unfold constant. rewrite Q1.
          destruct (section_ok u0 mem1 R (lag_at hz i / 4) x01 0 (px + nt) (ns - nt) c (f_coef q) w 0
            o (T + nt) (T - nh) (T + ns) x x y1) as (m2 & J1 & J2 & J3 & J4 & J5); auto; try lia.
          { symmetry. apply Hpos. lia. }
          { intros t Ht. apply X1. lia. }
          { intros t Ht. lia. }
          exists m2. split; [exact J1|]. split; [lia|]. split.
          * replace (T + nt + (ns - nt)) with (T + ns) in J3 by lia. exact J3.
          * intros a Ha. rewrite J5, O1 by lia. reflexivity.
        + assert (nt = ns) by lia. subst nt. exists mem1. split; [reflexivity|]. split; [exact L5|]. split; [|auto].
          rewrite Z.sub_diag. exact Y1.
      - exists mem1. split; [reflexivity|]. split; [exact L5|]. split; [|intros a Ha; apply O1; lia].
        intros t Ht. unfold copied. replace (T + nt + (ns - nt)) with (T + ns) by lia.
        destruct (Z.leb_spec (T + nt) t), (Z.ltb_spec t (T + ns)); cbn [andb]; try lia; [apply X1|apply Y1]; lia. }
    destruct S2 as (mem2 & S2 & L6 & Y2 & O2). rewrite S2. cbn [bind].
    destruct (rdn_ok c 0 (2 * w)) as (cs & E6 & L7 & V6); try lia. rewrite E6. cbn [bind].
    destruct (put_head_ok (t_c st) cs) as (tc & E7 & L8 & V7); try lia. rewrite E7. cbn [bind].
    eexists mem2, _. split; [reflexivity|]. split; [|auto]. split; cbn [t_x t_c t_active t_pitch]; try lia.
    - intros t Ht. apply Y2. lia.
    - intros j Hj. rewrite V3, V2 by lia. replace (px + ns - (w - 1) + j) with (px + (ns - (w - 1) + j)) by lia.
      rewrite <- Hpos by lia. rewrite Hx by lia. do 2 f_equal. lia.
    - intros Eq. destruct Hq as (Hq1 & Hq2); [congruence|]. rewrite Hq1. repeat split; try lia.
      intros k Hk. rewrite V7, V6 by lia. rewrite Z.add_0_l. apply Hq2. lia.
  Qed.

  (** ** All frames *)
  Lemma copied_out n T (x y : Z -> F) s : s < T \/ T + n <= s -> copied n T x y s = y s.
  Proof. intros H. unfold copied. destruct (Z.leb_spec T s), (Z.ltb_spec s (T + n)); cbn [andb]; auto; lia. Qed.
  Lemma frame_out ns nt w T p q (x y : Z -> F) s : 0 <= nt <= ns -> s < T \/ T + ns <= s -> frame ns nt w T p q x y s = y s.
  Proof.
    intros Hn Hs. unfold LtpfSpec.frame.
    match goal with |- (if _ then constant _ _ _ _ _ _ _ _ _ _ _ ?b else _) s = _ => assert (E : b s = y s) end.
    { unfold fade_in, fade_out, constant.
      destruct (f_active p), (f_active q); [destruct (_ =? _)|..]; try apply filtered_out; try apply copied_out; lia. }
    destruct (f_active q); [unfold constant; rewrite filtered_out by lia|rewrite copied_out by lia]; exact E.
  Qed.

  Local Notation post := (postfilter zero add sub mul div ofz k04 k005 k085 cden cnum).
  Local Notation output := (output zero add sub mul div ofz k04 k005 k085 den num).

  Definition zrange (n : Z) : list Z := map Z.of_nat (seq 0 (Z.to_nat n)).
  Lemma rd_map_range (f : Z -> F) n i : 0 <= i < n -> @rd F (map f (zrange n)) i = Some (f i).
  Proof.
    intros H. unfold zrange, rd. destruct (Z.ltb_spec i 0); [lia|]. rewrite map_map. rewrite nth_error_map.
    rewrite (nth_error_nth' _ O) by (rewrite seq_length; lia). cbn [option_map]. rewrite seq_nth by lia. do 2 f_equal. lia.
  Qed.
  Lemma zlen_zrange n : 0 <= n -> zlen (zrange n) = n.
  Proof. intros H. unfold zrange, zlen. rewrite map_length, seq_length. lia. Qed.

  Lemma zrange_S n : 0 <= n -> zrange (1 + n) = 0 :: map (Z.add 1) (zrange n).
  Proof.
    intros H. unfold zrange. replace (Z.to_nat (1 + n)) with (S (Z.to_nat n)) by lia. cbn [seq map]. f_equal.
    rewrite <- seq_shift, !map_map. apply map_ext. intros. lia.
  Qed.

  Lemma put_window_ok (mem : list F) R px f : 0 <= px -> px + zlen (r_xs f) <= R -> R <= zlen mem ->
    exists mem', put_window mem R px f = Some mem' /\ R <= zlen mem' /\
      (forall i, 0 <= i < zlen (r_xs f) -> rd mem' (px + i) = rd (r_xs f) i) /\
      (forall p, 0 <= p < R -> p < px \/ px + zlen (r_xs f) <= p -> rd mem' p = rd mem p).
  Proof.
    intros H0 H1 H2. unfold put_window. destruct (_ && _) eqn:E; [|lia]. eexists. split; [reflexivity|].
    pose proof (zlen_nonneg (r_xs f)) as Hx.
    assert (L1 : zlen (firstn (Z.to_nat px) mem) = px) by (unfold zlen in *; rewrite firstn_length; lia).
    set (n := zlen (r_xs f)) in *.
    assert (L2 : zlen (firstn (Z.to_nat (R - (px + n))) (skipn (Z.to_nat (px + n)) mem)) = R - (px + n)).
    { unfold zlen in *. rewrite firstn_length, skipn_length. lia. }
    split; [|split].
    - rewrite !zlen_app, L1, L2. fold n. pose proof (zlen_nonneg (r_rest f)). lia.
    - intros i Hi. rewrite rd_app_r by lia. rewrite rd_app_l by (fold n; lia). f_equal. lia.
    - intros p Hp Ho. destruct (Z.lt_ge_cases p px).
      + rewrite rd_app_l by lia. unfold rd. destruct (Z.ltb_spec p 0); [lia|]. apply nth_error_firstn'. lia.
      + rewrite rd_app_r by lia. rewrite rd_app_r by (fold n; lia). fold n. rewrite rd_app_l by lia.
        unfold rd. rewrite L1. destruct (Z.ltb_spec (p - px - n) 0), (Z.ltb_spec p 0); try lia.
        rewrite nth_error_firstn' by lia. rewrite nth_error_skipn'. f_equal. lia.
  Qed.

  Definition spec_frames (fr : list (@frame_in F)) : list (Z * option (bool * Z)) :=
    map (fun f => (r_nbytes f, spec_data (r_data f))) fr.
  Definition frame_in_ok (ns : Z) (f : @frame_in F) : Prop :=
    zlen (r_xs f) = ns /\ - 10000000 <= r_nbytes f <= 10000000 /\
    (forall d, r_data f = Some d -> 0 <= l_pitch d < 512).

  Lemma output_out q sr hz x fr fr' s : 0 <= hz / 400 -> 1 <= q ->
    s < Z.of_nat (length fr) * (q * (hz / 400)) ->
    fst (output q sr hz x (fr' ++ fr)) s = fst (output q sr hz x fr) s.
  Proof.
    intros Hh Hq Hs. induction fr' as [|(nb, d) fr' IH]; [reflexivity|]. cbn [app LtpfSpec.output].
    destruct (output q sr hz x (fr' ++ fr)) as [y p]. cbn [fst] in *. rewrite frame_out; [exact IH|nia|].
    left. rewrite app_length. nia.
  Qed.

  Lemma postfilter_ok dt sr ns nt nh w hz o c0 u0 (x : Z -> F) : geometry dt sr ns nt nh w hz ->
    0 <= dt < 4 -> 0 <= sr < 5 -> zlen c0 = 48 -> zlen u0 = 24 ->
    forall fr pre d st mem,
    d_dt d = dt -> d_srp d = sr -> d_xh d = 0 ->
    let R := ns + nh in
    let m := Z.of_nat (length pre) in
    let T := m * ns in
    o mod ns = 0 -> d_xs d = (T + o) mod R ->
    Forall (frame_in_ok ns) fr ->
    (forall k i f, nth_error fr k = Some f -> 0 <= i < ns -> rd (r_xs f) i = Some (x (T + Z.of_nat k * ns + i))) ->
    (let '(y, p) := output (1 + dt) sr hz x (spec_frames pre) in inv R o nh w T p x y st mem) ->
    post c0 u0 d st mem fr = Some (map (fun k => map (fun i =>
       fst (output (1 + dt) sr hz x (spec_frames (rev fr ++ pre))) (T + k * ns + i)) (zrange ns)) (zrange (zlen fr))).
  Proof.
    intros G Hdt Hsr Hc0 Hu0. pose proof (g_wt _ _ _ _ _ _ _ G) as Hwt. pose proof (g_w0 _ _ _ _ _ _ _ G) as Hw.
    pose proof (g_nh0 _ _ _ _ _ _ _ G) as Hnh.
    induction fr as [|f fr IH]; intros pre d st mem Ed Es Eh R m T Hos Ex Hf Hxs I.
    - reflexivity.
    - cbn [postfilter]. rewrite Ed, Es, Eh. rewrite (g_ns _ _ _ _ _ _ _ G), (g_nh _ _ _ _ _ _ _ G). fold R.
      pose proof (Forall_inv Hf) as (F1 & F2 & F3). apply Forall_inv_tail in Hf.
      destruct (output (1 + dt) sr hz x (spec_frames pre)) as [y p] eqn:Eo.
      assert (HR : 0 < R) by (unfold R; lia). assert (HT : 0 <= T) by (unfold T, m; nia).
      pose proof (Z.mod_pos_bound (T + o) R HR) as Hpx. set (px := (T + o) mod R) in *.
      pose proof Hos as Hos'. apply Z.mod_divide in Hos'; [|lia]. destruct Hos' as (oo & Eoo).
      assert (HTns : (T + o) mod ns = 0) by (unfold T; rewrite Eoo, <- Z.mul_add_distr_r; apply Z.mod_mul; lia).
      pose proof (g_div _ _ _ _ _ _ _ G) as Gd. apply Z.mod_divide in Gd; [|lia]. destruct Gd as (a & Ea).
      pose proof (Z.div_mod (T + o) R ltac:(lia)) as ET. fold px in ET.
      assert (Ep : px = (m + oo - (a + 1) * ((T + o) / R)) * ns) by (unfold R, T in *; nia).
      set (e := m + oo - (a + 1) * ((T + o) / R)) in *. clearbody e.
      assert (He : 0 <= e < a + 1) by (unfold R in *; nia).
      assert (Hpn : px + ns <= R) by (unfold R; nia).
      rewrite Ex. destruct (put_window_ok mem R px f) as (mem1 & E1 & L1 & V1 & O1); try lia.
      { apply (i_len _ _ _ _ _ _ _ _ _ _ I). }
      rewrite E1. cbn [bind].
      assert (Hpos : forall d, 0 <= d < ns -> (T + d + o) mod R = px + d).
      { intros b Hb. symmetry. apply Z.mod_unique with ((T + o) / R); [left|]; lia. }
      assert (Hhold : holds mem1 R o T (T + ns) x).
      { intros t Ht. replace t with (T + (t - T)) at 1 by lia. rewrite Hpos by lia. rewrite V1 by lia.
        rewrite (Hxs O (t - T) f eq_refl) by lia. do 2 f_equal. lia. }
      assert (I1 : inv R o nh w T p x y st mem1).
      { destruct I as [Ilen Itx Itc Iy Ix Iact Ipar]. split; auto. intros t Ht. rewrite <- Iy by lia. apply O1.
        - apply Z.mod_pos_bound. lia.
        - rewrite F1. destruct (Z.lt_ge_cases ((t + o) mod R) px); [lia|].
          destruct (Z.lt_ge_cases ((t + o) mod R) (px + ns)); [|lia].
          assert (E2 : (t + o) mod R = (T + ((t + o) mod R - px) + o) mod R) by (rewrite Hpos; lia).
          apply mod_inj in E2; [lia|lia|]. assert (ER : R = ns + nh) by reflexivity. lia. }
      destruct (frame_ok c0 u0 dt sr (r_nbytes f) (r_data f) st mem1 ns nt nh w hz o T p x y G) as (mem2 & st2 & E2 & I2 & L2 & Y2 & O2); auto.
      fold R in E2. fold px in E2. rewrite E2. cbn [bind].
      destruct (rdn_ok mem2 px ns) as (out & E3 & L3 & V3); try lia. rewrite E3. cbn [bind].
      assert (Eo' : output (1 + dt) sr hz x (spec_frames (f :: pre)) =
        (frame ns nt w T p (frame_params (1 + dt) sr hz (r_nbytes f) (spec_data (r_data f))) x y,
         frame_params (1 + dt) sr hz (r_nbytes f) (spec_data (r_data f)))).
      { cbn [spec_frames map LtpfSpec.output]. fold (spec_frames pre). rewrite Eo.
        rewrite (g_nt400 _ _ _ _ _ _ _ G), (g_width _ _ _ _ _ _ _ G), <- (g_ns400 _ _ _ _ _ _ _ G).
        unfold spec_frames. rewrite map_length. reflexivity. }
      specialize (IH (f :: pre) (complete d) st2 mem2). cbv zeta in IH.
      assert (Em : Z.of_nat (length (f :: pre)) = m + 1) by (unfold m; cbn [length]; lia).
      rewrite Em in IH. replace ((m + 1) * ns) with (T + ns) in IH by (unfold T; lia). fold R in IH.
      rewrite IH; clear IH.
      + cbn [bind]. f_equal. rewrite zlen_cons, zrange_S by apply zlen_nonneg. cbn [map]. assert (Er : rev fr ++ f :: pre = rev (f :: fr) ++ pre) by (cbn [rev]; rewrite <- app_assoc; reflexivity).
        rewrite Er. f_equal.
        * apply rd_ext; [rewrite zlen_map, zlen_zrange; lia|]. intros i Hi. rewrite rd_map_range by lia. rewrite V3 by lia.
          rewrite <- Hpos by lia. rewrite Y2 by lia. f_equal. rewrite <- Er. unfold spec_frames. rewrite map_app.
          rewrite output_out.
          -- fold (spec_frames (f :: pre)). rewrite Eo'. cbn [fst]. f_equal. lia.
          -- rewrite (g_nt400 _ _ _ _ _ _ _ G). lia.
          -- lia.
          -- rewrite map_length, Em. rewrite (g_nt400 _ _ _ _ _ _ _ G), <- (g_ns400 _ _ _ _ _ _ _ G). unfold T. lia.
        * rewrite map_map. apply map_ext. intros k. apply map_ext. intros i. f_equal. lia.
      + destruct d. exact Ed.
      + destruct d. exact Es.
      + destruct d. exact Eh.
      + exact Hos.
      + unfold complete. rewrite Ed, Es, Eh, Ex. cbn [d_xs]. rewrite (g_ns _ _ _ _ _ _ _ G), (g_nh _ _ _ _ _ _ _ G), Z.sub_0_r.
        destruct (Z.ltb_spec px nh).
        * assert (e + 1 < a + 1) by nia.
          apply Z.mod_unique with ((T + o) / R); [left|]; unfold R in *; nia.
        * assert (e = a) by nia. apply Z.mod_unique with ((T + o) / R + 1); [left|]; unfold R in *; nia.
      + exact Hf.
      + intros k i g Hk Hi. rewrite (Hxs (S k) i g Hk Hi). do 2 f_equal. lia.
      + rewrite Eo'. exact I2.
  Qed.
End floats.
