(** * Proofs about the long term postfilter *)
From Coq Require Import ZArith List Bool Lia.
From Verif Require Import Base BaseProofs ConfigModel SideModel LtpfModel LtpfSpec.
Import ListNotations.
Local Open Scope Z_scope.

(** ** Checked accesses *)
Section access.
  Context {A : Type}.
  Implicit Types l v : list A.

  Lemma rd_Some l i a : rd l i = Some a -> 0 <= i < zlen l.
  Proof.
    unfold rd, zlen. destruct (Z.ltb_spec i 0); [discriminate|]. intros E.
    assert (nth_error l (Z.to_nat i) <> None) by congruence. apply nth_error_Some in H0. lia.
  Qed.
  Lemma rd_in l i : 0 <= i < zlen l -> exists a, rd l i = Some a.
  Proof.
    unfold rd, zlen. intros H. destruct (Z.ltb_spec i 0); [lia|].
    destruct (nth_error l (Z.to_nat i)) eqn:E; [eauto|]. apply nth_error_None in E. lia.
  Qed.
  Lemma rd_znth l i d : 0 <= i < zlen l -> rd l i = Some (znth l i d).
  Proof.
    unfold rd, znth, zlen. intros H. destruct (Z.ltb_spec i 0); [lia|]. apply nth_error_nth'. lia.
  Qed.
  Lemma wr_in l i a : 0 <= i < zlen l -> wr l i a = Some (upd l i a).
  Proof. intros H. unfold wr, inb. destruct (_ && _) eqn:E; [reflexivity|lia]. Qed.
  Lemma rd_upd_same l i a : 0 <= i < zlen l -> rd (upd l i a) i = Some a.
  Proof. intros H. rewrite (rd_znth _ _ a) by (rewrite zlen_upd; lia). rewrite znth_upd_same by lia. reflexivity. Qed.
  Lemma upd_nat_nth l i j a : i <> j -> nth_error (upd_nat l i a) j = nth_error l j.
  Proof.
    revert i j. induction l as [|b l IH]; intros i j H; destruct i, j; cbn; auto; try lia.
  Qed.
  Lemma rd_upd_other l i j a : i <> j -> rd (upd l i a) j = rd l j.
  Proof.
    intros H. unfold rd, upd. destruct (Z.ltb_spec i 0), (Z.ltb_spec j 0); auto.
    apply upd_nat_nth. lia.
  Qed.
  Lemma rd_app_l l v i : i < zlen l -> rd (l ++ v) i = rd l i.
  Proof. unfold rd, zlen. intros H. destruct (Z.ltb_spec i 0); auto. apply nth_error_app1. lia. Qed.
  Lemma rd_app_r l v i : zlen l <= i -> rd (l ++ v) i = rd v (i - zlen l).
  Proof.
    unfold rd, zlen. intros H. destruct (Z.ltb_spec i 0), (Z.ltb_spec (i - Z.of_nat (length l)) 0); try lia.
    rewrite nth_error_app2 by lia. f_equal. lia.
  Qed.
  Lemma rd_ext l v : zlen l = zlen v -> (forall i, 0 <= i < zlen l -> rd l i = rd v i) -> l = v.
  Proof.
    revert v. induction l as [|a l IH]; intros [|b v] E H; rewrite ?zlen_cons, ?zlen_nil in E; auto;
      [pose proof (zlen_nonneg v); lia|pose proof (zlen_nonneg l); lia|].
    pose proof (zlen_nonneg l).
    rewrite zlen_cons in H.
    pose proof (H 0 ltac:(lia)) as H1. cbn in H1. injection H1 as ->. f_equal. apply IH; [lia|].
    intros i Hi. specialize (H (1 + i) ltac:(lia)). unfold rd in *.
    destruct (Z.ltb_spec (1 + i) 0), (Z.ltb_spec i 0); try lia. replace (Z.to_nat (1 + i)) with (S (Z.to_nat i)) in H by lia. exact H.
  Qed.
  Lemma nth_error_firstn' l n i : (i < n)%nat -> nth_error (firstn n l) i = nth_error l i.
  Proof. revert n i. induction l; intros [|n] [|i] H; cbn; auto; try lia. apply IHl. lia. Qed.
  Lemma nth_error_skipn' l n i : nth_error (skipn n l) i = nth_error l (n + i).
  Proof. revert n. induction l; intros [|n]; cbn; auto. destruct i; reflexivity. Qed.
  Lemma rdn_ok l i n : 0 <= i -> 0 <= n -> i + n <= zlen l ->
    exists v, rdn l i n = Some v /\ zlen v = n /\ forall j, 0 <= j < n -> rd v j = rd l (i + j).
  Proof.
    intros Hi Hn H. unfold rdn. destruct (_ && _) eqn:E; [|lia]. eexists. split; [reflexivity|]. unfold zlen in *. split.
    - rewrite firstn_length, skipn_length. lia.
    - intros j Hj. unfold rd. destruct (Z.ltb_spec j 0), (Z.ltb_spec (i + j) 0); try lia.
      rewrite nth_error_firstn' by lia. rewrite nth_error_skipn'. f_equal. lia.
  Qed.
  Lemma rdn_some l i n v : rdn l i n = Some v -> zlen v = n /\ forall j, 0 <= j < n -> rd v j = rd l (i + j).
  Proof.
    intros E. assert (H : 0 <= i /\ 0 <= n /\ i + n <= zlen l).
    { unfold rdn in E. destruct (_ && _) eqn:E'; [lia|discriminate]. }
    destruct H as (H1 & H2 & H3). destruct (rdn_ok l i n H1 H2 H3) as (v' & E' & H'). rewrite E in E'. injection E' as <-. exact H'.
  Qed.
  Lemma put_head_ok l v : zlen v <= zlen l ->
    exists l', put_head l v = Some l' /\ zlen l' = zlen l /\ forall j, 0 <= j < zlen v -> rd l' j = rd v j.
  Proof.
    intros H. unfold put_head. destruct (Z.leb_spec (zlen v) (zlen l)); [|lia]. eexists. split; [reflexivity|].
    unfold zlen in *. split.
    - rewrite app_length, skipn_length. lia.
    - intros j Hj. apply rd_app_l. unfold zlen. lia.
  Qed.
End access.

(** ** The loops *)
Section floats.
  Context {F : Type} (zero : F) (add sub mul div : F -> F -> F) (ofz : Z -> F).
  Local Notation taps := (taps zero add sub mul).
  Local Notation acc := (acc mul).

  Lemma acc_ok n : forall op c cf pos base v k (u : list F),
    (forall i, k <= i < k + Z.of_nat n -> 0 <= pos i < zlen u /\ rd c (base + i) = Some (cf (base + i))) ->
    (forall i j, k <= i < k + Z.of_nat n -> k <= j < k + Z.of_nat n -> pos i = pos j -> i = j) ->
    exists u', acc n op c pos base v k u = Some u' /\ zlen u' = zlen u /\
      (forall i a, k <= i < k + Z.of_nat n -> rd u (pos i) = Some a ->
                   rd u' (pos i) = Some (op a (mul v (cf (base + i))))) /\
      (forall p, (forall i, k <= i < k + Z.of_nat n -> p <> pos i) -> rd u' p = rd u p).
  Proof.
    induction n as [|n IH]; intros op c cf pos base v k u Hp Hinj.
    - exists u. cbn [LtpfModel.acc]. split; [reflexivity|]. split; [reflexivity|]. split; [lia|reflexivity].
    - cbn [LtpfModel.acc]. destruct (Hp k ltac:(lia)) as (H1 & H2). destruct (rd_in u (pos k) H1) as (a & Ea).
      rewrite Ea. cbn [bind]. rewrite H2. cbn [bind]. rewrite wr_in by exact H1. cbn [bind].
      destruct (IH op c cf pos base v (k + 1) (upd u (pos k) (op a (mul v (cf (base + k)))))) as (u' & E & L & V & O).
      + intros i Hi. rewrite zlen_upd. apply Hp. lia.
      + intros i j Hi Hj. apply Hinj; lia.
      + exists u'. rewrite E. split; [reflexivity|]. rewrite zlen_upd in L. split; [exact L|]. split.
        * intros i b Hi Eb. destruct (Z.eq_dec i k) as [->|Ne].
          -- rewrite O. { rewrite rd_upd_same by exact H1. congruence. }
             intros i Hi' Ep. apply Hinj in Ep; lia.
          -- apply V; [lia|]. rewrite rd_upd_other; [exact Eb|]. intros Ep. apply Hinj in Ep; lia.
        * intros p Hne. rewrite O by (intros i Hi; apply Hne; lia). apply rd_upd_other.
          intros Ep. exact (Hne k ltac:(lia) (eq_sym Ep)).
  Qed.

  Lemma taps_S n w lag c y x t : taps (S n) w lag c y x t =
    add (sub (taps n w lag c y x t) (mul (y (t - lag + Z.of_nat n)) (c (Z.of_nat n))))
        (mul (x (t - (w - 1) + Z.of_nat n)) (c (w + Z.of_nat n))).
  Proof. reflexivity. Qed.
  Lemma taps_ext n w lag c y y' x t : (forall k, 0 <= k < Z.of_nat n -> y (t - lag + k) = y' (t - lag + k)) ->
    taps n w lag c y x t = taps n w lag c y' x t.
  Proof.
    induction n as [|n IH]; intros H; [reflexivity|]. rewrite !taps_S. rewrite IH by (intros k Hk; apply H; lia).
    rewrite (H (Z.of_nat n)) by lia. reflexivity.
  Qed.

  (** Both loops of a step: every slot gets one more term. *)
  Lemma acc2_ok n c cf w lag (y x : stream) (pos : Z -> Z) (tm : Z -> Z) t (u : list F) :
    0 <= w -> Z.of_nat n <= w ->
    (forall k, 0 <= k < 2 * w -> rd c k = Some (cf k)) ->
    (forall k, 0 <= k < Z.of_nat n -> 0 <= pos k < zlen u) ->
    (forall i j, 0 <= i < Z.of_nat n -> 0 <= j < Z.of_nat n -> pos i = pos j -> i = j) ->
    (forall k, 0 <= k < Z.of_nat n -> tm k = t + (w - 1) - k /\ rd u (pos k) = Some (taps (Z.to_nat k) w lag cf y x (tm k))) ->
    exists u1 u', acc n sub c pos 0 (y (t + (w - 1) - lag)) 0 u = Some u1 /\ acc n add c pos w (x t) 0 u1 = Some u' /\
      zlen u' = zlen u /\
      (forall k, 0 <= k < Z.of_nat n -> rd u' (pos k) = Some (taps (S (Z.to_nat k)) w lag cf y x (tm k))) /\
      (forall p, (forall i, 0 <= i < Z.of_nat n -> p <> pos i) -> rd u' p = rd u p).
  Proof.
    intros Hw Hn Hc Hp Hinj Hu.
    destruct (acc_ok n sub c cf pos 0 (y (t + (w - 1) - lag)) 0 u) as (u1 & E1 & L1 & V1 & O1).
    { intros i Hi. split; [apply Hp; lia|apply Hc; lia]. } { intros i j Hi Hj. apply Hinj; lia. }
    destruct (acc_ok n add c cf pos w (x t) 0 u1) as (u2 & E2 & L2 & V2 & O2).
    { intros i Hi. rewrite L1. split; [apply Hp; lia|apply Hc; lia]. } { intros i j Hi Hj. apply Hinj; lia. }
    exists u1, u2. split; [exact E1|]. split; [exact E2|]. split; [lia|]. split.
    - intros k Hk. destruct (Hu k Hk) as (Et & Er). erewrite V2; [|lia|apply V1; [lia|exact Er]].
      rewrite taps_S. rewrite Z2Nat.id by lia. do 4 f_equal; try (f_equal; lia). 
    - intros p Hne. rewrite O2, O1; auto; intros i Hi; apply Hne; lia.
  Qed.

  (** ** Ring *)
  Lemma mod_inj R a b : 0 < R -> a mod R = b mod R -> - R < a - b < R -> a = b.
  Proof.
    intros HR E H. pose proof (Z.div_mod a R ltac:(lia)). pose proof (Z.div_mod b R ltac:(lia)).
    assert (E' : a - b = R * (a / R - b / R)) by (rewrite Z.mul_sub_distr_l; lia).
    assert (a / R - b / R = 0) by (clear - E' H HR; nia). nia.
  Qed.
  Lemma ring_next R t : 0 < R -> (if t mod R <? 0 + R - 1 then t mod R + 1 else 0) = (t + 1) mod R.
  Proof.
    intros HR. pose proof (Z.mod_pos_bound t R HR). pose proof (Z.div_mod t R ltac:(lia)) as E.
    destruct (Z.ltb_spec (t mod R) (0 + R - 1)).
    - apply Z.mod_unique with (t / R); [left|]; lia.
    - apply Z.mod_unique with (t / R + 1); [left|]; lia.
  Qed.

  Lemma preload_ok n : forall (mem : list F) R T lag (x0m : list F) x0p c cf w (y x : stream) j u,
    0 < R -> 0 <= j -> j + Z.of_nat n = w - 1 -> w <= zlen u ->
    (forall k, 0 <= k < 2 * w -> rd c k = Some (cf k)) ->
    (forall t, T - lag <= t < T - lag + (w - 1) -> rd mem (t mod R) = Some (y t)) ->
    (forall i, 0 <= i < w - 1 -> rd x0m (x0p + i) = Some (x (T - (w - 1) + i))) ->
    (forall s, 0 <= s < j -> rd u s = Some (taps (Z.to_nat (j - s)) w lag cf y x (T + s))) ->
    exists u', preload zero add sub mul n mem 0 (0 + R - 1) x0m x0p c w j ((T - lag + j) mod R) u =
        Some (u', (T - lag + (w - 1)) mod R) /\ zlen u' = zlen u /\
      (forall s, 0 <= s < w - 1 -> rd u' s = Some (taps (Z.to_nat (w - 1 - s)) w lag cf y x (T + s))).
  Proof.
    induction n as [|n IH]; intros mem R T lag x0m x0p c cf w y x j u HR Hj Hn Hu Hc Hy Hx Hs.
    - cbn [preload]. exists u. replace j with (w - 1) in * by lia. auto.
    - cbn [preload]. rewrite wr_in by lia. cbn [bind]. rewrite Hy by lia. cbn [bind]. rewrite Hx by lia. cbn [bind].
      destruct (acc2_ok (Z.to_nat (j + 1)) c cf w lag y x (fun k => j - k) (fun k => T + (j - k)) (T - (w - 1) + j)
        (upd u j zero)) as (u1 & u2 & E1 & E2 & L & V & O); try lia; auto.
      { intros k Hk. rewrite zlen_upd. lia. }
      { intros k Hk. split; [lia|]. destruct (Z.eq_dec k 0) as [->|Nk].
        - rewrite Z.sub_0_r. rewrite rd_upd_same by lia. reflexivity.
        - rewrite rd_upd_other by lia. rewrite Hs by lia. do 2 f_equal. lia. }
      replace (T - (w - 1) + j + (w - 1) - lag) with (T - lag + j) in E1 by lia.
      rewrite E1. cbn [bind]. rewrite E2. cbn [bind]. rewrite ring_next by lia.
      replace (T - lag + j + 1) with (T - lag + (j + 1)) by lia. rewrite zlen_upd in L.
      rewrite <- L. apply IH; auto; try lia.
      intros s Hs'. replace s with (j - (j - s)) at 1 by lia. rewrite V by lia. do 2 f_equal; lia.
  Qed.

  (** Remaining samples [i] to [n] of a section from time [T]; [H] is the filtered stream.
      The memory holds [H] before time [T + i] (from [lo]), the input [x] after (up to [hi]). *)
  Lemma filter_ok n : forall R T lag c cf w g0 gi (H x : stream) lo hi i g px j u mem,
    0 < R -> R <= zlen mem -> 0 < w -> hi - lo <= R -> lo <= T - lag -> w <= lag -> T + i + Z.of_nat n <= hi -> 0 <= i -> w <= zlen u ->
    0 <= px -> px + Z.of_nat n <= R -> (forall d, 0 <= d < Z.of_nat n -> px + d = (T + i + d) mod R) -> j = i mod w -> g = gain add g0 gi (Z.to_nat i) ->
    (forall k, 0 <= k < 2 * w -> rd c k = Some (cf k)) ->
    (forall t, T + i <= t < T + i + Z.of_nat n ->
       H t = sub (x t) (mul (gain add g0 gi (Z.to_nat (t - T))) (taps (Z.to_nat w) w lag cf H x t))) ->
    (forall t, lo <= t < T + i -> rd mem (t mod R) = Some (H t)) ->
    (forall t, T + i <= t < T + i + Z.of_nat n -> rd mem (t mod R) = Some (x t)) ->
    (forall d, 0 <= d < w -> rd u ((j + d) mod w) = Some (taps (Z.to_nat (w - 1 - d)) w lag cf H x (T + i + d))) ->
    exists mem', filter zero add sub mul n 0 (0 + R - 1) c w gi j px ((T + i - lag + (w - 1)) mod R) g u mem = Some mem' /\
      zlen mem' = zlen mem /\
      (forall d, 0 <= d < Z.of_nat n -> rd mem' (px + d) = Some (H (T + i + d))) /\
      (forall p, p < px \/ px + Z.of_nat n <= p -> rd mem' p = rd mem p).
  Proof.
    induction n as [|n IH]; intros R T lag c cf w g0 gi H x lo hi i g px j u mem HR Hm Hw Hhi Hlo Hlag Hin Hi Hu Hp0 Hp1 Hpx Hj Hg Hc HH Hy Hx Hs.
    - cbn [filter]. exists mem. split; [reflexivity|]. split; [reflexivity|]. split; [lia|reflexivity].
    - cbn [filter]. rewrite Hy by lia. cbn [bind]. pose proof (Hx (T + i) ltac:(lia)) as Hx0. pose proof (Hpx 0 ltac:(lia)) as Hpx0. rewrite !Z.add_0_r in Hpx0. rewrite <- Hpx0 in Hx0.
      rewrite Hx0. cbn [bind].
      assert (Hjw : 0 <= j < w) by (subst j; apply Z.mod_pos_bound; lia).
      destruct (acc2_ok (Z.to_nat w) c cf w lag H x (fun k => (j + (w - 1) - k) mod w) (fun k => T + i + (w - 1) - k) (T + i) u)
        as (u1 & u2 & E1 & E2 & L & V & O); try lia; auto.
      { intros k Hk. pose proof (Z.mod_pos_bound (j + (w - 1) - k) w Hw). lia. }
      { intros a b Ha Hb E. rewrite Z2Nat.id in * by lia.
        assert (E' : ((j + (w - 1) - a) - (j + (w - 1) - b)) mod w = 0).
        { rewrite Zminus_mod, E, Z.sub_diag. apply Z.mod_0_l. lia. }
        apply Z.mod_divide in E'; [|lia]. destruct E' as (q & E'). assert (q = 0) by (clear - E' Ha Hb Hw; nia). subst q. lia. }
      { intros k Hk. split; [lia|]. replace (j + (w - 1) - k) with (j + (w - 1 - k)) by lia. rewrite Hs by lia.
        do 2 f_equal; lia. }
      replace (T + i + (w - 1) - lag) with (T + i - lag + (w - 1)) in E1 by lia.
      rewrite E1. cbn [bind]. rewrite E2. cbn [bind].
      assert (Ej : rd u2 j = Some (taps (Z.to_nat w) w lag cf H x (T + i))).
      { specialize (V (w - 1) ltac:(lia)). cbv beta in V. replace (j + (w - 1) - (w - 1)) with j in V by lia.
        rewrite Z.mod_small in V by lia. rewrite V. do 2 f_equal; lia. }
      rewrite Ej. cbn [bind]. rewrite wr_in by lia. cbn [bind]. rewrite wr_in by lia. cbn [bind].
      rewrite ring_next by lia. set (v := sub (x (T + i)) (mul g (taps (Z.to_nat w) w lag cf H x (T + i)))).
      assert (Ev : v = H (T + i)).
      { rewrite HH by lia. unfold v. rewrite Hg. do 3 f_equal. f_equal. lia. }
      destruct (IH R T lag c cf w g0 gi H x lo hi (i + 1) (add g gi) (px + 1) (if j + 1 <? w then j + 1 else 0)
        (upd u2 j zero) (upd mem px v)) as (mem' & E & L' & V' & O'); try rewrite zlen_upd; try lia; auto.
      { intros d Hd. specialize (Hpx (1 + d) ltac:(lia)). replace (T + (i + 1) + d) with (T + i + (1 + d)) by lia. lia. }
      { subst j. pose proof (Z.div_mod i w ltac:(lia)) as Ei. destruct (Z.ltb_spec (i mod w + 1) w).
        - apply Z.mod_unique with (i / w); [left|]; lia.
        - apply Z.mod_unique with (i / w + 1); [left|]; lia. }
      { subst g. replace (Z.to_nat (i + 1)) with (S (Z.to_nat i)) by lia. reflexivity. }
      { intros t Ht. apply HH. lia. }
      { intros t Ht. destruct (Z.eq_dec t (T + i)) as [->|Nt].
        - rewrite <- Hpx0, rd_upd_same by lia. rewrite Ev. reflexivity.
        - rewrite rd_upd_other; [apply Hy; lia|]. rewrite Hpx0. intros E. apply mod_inj in E; lia. }
      { intros t Ht. rewrite rd_upd_other; [apply Hx; lia|]. rewrite Hpx0. intros E. apply mod_inj in E; lia. }
      { intros d Hd. assert (Ed : ((if j + 1 <? w then j + 1 else 0) + d) mod w = (j + (d + 1)) mod w).
        { destruct (Z.ltb_spec (j + 1) w); [f_equal; lia|]. replace (j + (d + 1)) with (0 + d + 1 * w) by lia.
          rewrite Z_mod_plus_full. reflexivity. }
        rewrite Ed. destruct (Z.eq_dec d (w - 1)) as [->|Nd].
        - replace (j + (w - 1 + 1)) with (j + 1 * w) by lia. rewrite Z_mod_plus_full, Z.mod_small by lia.
          rewrite rd_upd_same by lia. rewrite Z.sub_diag. reflexivity.
        - rewrite rd_upd_other.
          2:{ rewrite <- (Z.mod_small j w) at 1 by lia. intros E. apply mod_inj in E; lia. }
          specialize (V (w - 1 - (d + 1)) ltac:(lia)). cbv beta in V.
          replace (j + (w - 1) - (w - 1 - (d + 1))) with (j + (d + 1)) in V by lia. rewrite V.
          f_equal. f_equal; lia. }
      exists mem'. rewrite zlen_upd in L'. replace (T + (i + 1) - lag + (w - 1)) with (T + i - lag + (w - 1) + 1) in E by lia.
      rewrite E. split; [reflexivity|]. split; [exact L'|]. split.
      + intros d Hd. destruct (Z.eq_dec d 0) as [->|Nd].
        * rewrite O' by lia. rewrite !Z.add_0_r, rd_upd_same by lia. rewrite Ev. reflexivity.
        * specialize (V' (d - 1) ltac:(lia)). replace (px + 1 + (d - 1)) with (px + d) in V' by lia.
          rewrite V'. do 2 f_equal. lia.
      + intros p Hp. rewrite O' by lia. apply rd_upd_other. lia.
  Qed.

  (** ** A section of samples *)
  Local Notation filtered := (filtered zero add sub mul).
  Lemma filtered_out n T w lag cf g d (x y : stream) s : s < T \/ T + Z.of_nat n <= s ->
    filtered n T w lag cf g d x y s = y s.
  Proof.
    induction n as [|n IH]; intros H; [reflexivity|]. cbn [LtpfSpec.filtered]. cbv zeta.
    destruct (Z.eqb_spec s (T + Z.of_nat n)); [lia|]. apply IH. lia.
  Qed.
  Lemma filtered_prefix n m T w lag cf g d (x y : stream) s : (m <= n)%nat -> s < T + Z.of_nat m ->
    filtered n T w lag cf g d x y s = filtered m T w lag cf g d x y s.
  Proof.
    intros Hm Hs. induction n as [|n IH]; [replace m with O by lia; reflexivity|].
    destruct (Nat.eq_dec m (S n)) as [->|Ne]; [reflexivity|]. rewrite <- IH by lia. cbn [LtpfSpec.filtered]. cbv zeta.
    destruct (Z.eqb_spec s (T + Z.of_nat n)); [lia|reflexivity].
  Qed.
  Lemma filtered_eq n T w lag cf g d (x y : stream) t : 0 <= w <= lag -> T <= t < T + Z.of_nat n ->
    filtered n T w lag cf g d x y t =
    sub (x t) (mul (gain add g d (Z.to_nat (t - T))) (taps (Z.to_nat w) w lag cf (filtered n T w lag cf g d x y) x t)).
  Proof.
    intros Hw Ht. pose (m := Z.to_nat (t - T)). rewrite (filtered_prefix n (S m)) by lia.
    cbn [LtpfSpec.filtered]. cbv zeta. replace (T + Z.of_nat m) with t by lia. rewrite Z.eqb_refl. do 2 f_equal.
    apply taps_ext. intros k Hk. symmetry. apply filtered_prefix; lia.
  Qed.

  Lemma template_ok u0 mem R lag0 x0m x0p px n c cf w fade T lo hi (x y : stream) :
    let lag := lag0 + w / 2 in
    0 < R <= zlen mem -> 0 < w -> 0 <= n -> n mod w = 0 -> w <= lag -> lo <= T - lag -> hi - lo <= R -> T + n <= hi ->
    px = T mod R -> px + n <= R -> w <= zlen u0 ->
    (forall k, 0 <= k < 2 * w -> rd c k = Some (cf k)) ->
    (forall i, 0 <= i < w - 1 -> rd x0m (x0p + i) = Some (x (T - (w - 1) + i))) ->
    (forall t, lo <= t < T -> rd mem (t mod R) = Some (y t)) ->
    (forall t, T <= t < T + n -> rd mem (t mod R) = Some (x t)) ->
    exists mem', synthesize_template zero add sub mul div ofz u0 mem 0 R lag0 x0m x0p px n c w fade = Some mem' /\
      zlen mem' = zlen mem /\
      (forall d, 0 <= d < n -> rd mem' (px + d) =
         Some (filtered (Z.to_nat n) T w lag cf (ofz (b2z (fade <=? 0)))
                 (div (ofz (b2z (0 <? fade) - b2z (fade <? 0))) (ofz n)) x y (T + d))) /\
      (forall p, p < px \/ px + n <= p -> rd mem' p = rd mem p).
  Proof.
    intros lag HR Hw Hn Hnw Hlag Hlo Hhi HT Hpx Hpn Hu Hc Hx0 Hy Hx.
    unfold synthesize_template. replace (lag0 + shr w 1) with lag.
    2:{ reflexivity. }
    set (G := ofz (b2z (fade <=? 0))). set (GI := div (ofz (b2z (0 <? fade) - b2z (fade <? 0))) (ofz n)).
    clearbody lag G GI. pose proof (Z.mod_pos_bound T R ltac:(lia)) as HTR.
    assert (Ey : (if px - 0 <? lag then px + (R - lag) else px - lag) = (T - lag) mod R).
    { pose proof (Z.div_mod T R ltac:(lia)). destruct (Z.ltb_spec (px - 0) lag).
      - apply Z.mod_unique with (T / R - 1); [left|]; lia.
      - apply Z.mod_unique with (T / R); [left|]; lia. }
    rewrite Ey. set (H := filtered (Z.to_nat n) T w lag cf G GI x y).
    assert (HyH : forall t, t < T -> H t = y t) by (intros t Ht; apply filtered_out; lia).
    destruct (preload_ok (Z.to_nat (w - 1)) mem R T lag x0m x0p c cf w H x 0 u0) as (u1 & E1 & L1 & V1); auto; try lia.
    { intros t Ht. rewrite HyH by lia. apply Hy. lia. }
    replace (T - lag + 0) with (T - lag) in E1 by lia. rewrite E1. cbn [bind]. rewrite wr_in by lia. cbn [bind].
    replace (w * ((n + w - 1) / w)) with n.
    2:{ pose proof (Z.div_mod n w ltac:(lia)) as E. rewrite Hnw, Z.add_0_r in E.
        replace (n + w - 1) with (w - 1 + (n / w) * w) by lia. rewrite Z.div_add by lia.
        rewrite (Z.div_small (w - 1)) by lia. rewrite Z.add_0_l. lia. }
    destruct (filter_ok (Z.to_nat n) R T lag c cf w G GI H x lo hi 0 G px 0 (upd u1 (w - 1) zero) mem)
      as (mem' & E & L & V & O); try rewrite zlen_upd; try lia; auto.
    { intros d Hd. rewrite Hpx in *. pose proof (Z.div_mod T R ltac:(lia)).
      apply Z.mod_unique with (T / R); [left|]; lia. }
    { intros t Ht. apply filtered_eq; lia. }
    { intros t Ht. rewrite HyH by lia. apply Hy. lia. }
    { intros t Ht. apply Hx. lia. }
    { intros d Hd. rewrite Z.add_0_l, Z.mod_small by lia. rewrite Z.add_0_r. destruct (Z.eq_dec d (w - 1)) as [->|Nd].
      - rewrite rd_upd_same by lia. rewrite Z.sub_diag. reflexivity.
      - rewrite rd_upd_other by lia. apply V1. lia. }
    exists mem'. rewrite Z.add_0_r in E. rewrite E. split; [reflexivity|]. split; [exact L|]. split.
    - intros d Hd. rewrite V by lia. rewrite Z.add_0_r. reflexivity.
    - intros p Hp. apply O. lia.
  Qed.
End floats.

(** ** Parameters *)
Definition rate_hz (sr : Z) : Z := znth [8000; 16000; 24000; 32000; 48000] sr 0.

Lemma index_pitch_all : forallb (fun i => index_pitch i =? lag_of_index i) (map Z.of_nat (seq 0 512)) = true.
Proof. vm_compute. reflexivity. Qed.
Lemma index_pitch_eq i : 0 <= i < 512 -> index_pitch i = lag_of_index i.
Proof.
  intros H. pose proof index_pitch_all as E. rewrite forallb_forall in E. apply Z.eqb_eq, E.
  apply in_map_iff. exists (Z.to_nat i). split; [lia|]. apply in_seq. lia.
Qed.
Lemma lag_of_index_range i : 0 <= i < 512 -> 128 <= lag_of_index i <= 912.
Proof. intros H. unfold lag_of_index. destruct (Z.ltb_spec i 380), (Z.ltb_spec i 440); lia. Qed.

Lemma range5 (P : Z -> Prop) : P 0 -> P 1 -> P 2 -> P 3 -> P 4 -> forall s, 0 <= s < 5 -> P s.
Proof.
  intros ? ? ? ? ? s H. assert (E : s = 0 \/ s = 1 \/ s = 2 \/ s = 3 \/ s = 4) by lia.
  destruct E as [->|[->|[->|[->| ->]]]]; assumption.
Qed.
Lemma range4 (P : Z -> Prop) : P 0 -> P 1 -> P 2 -> P 3 -> forall s, 0 <= s < 4 -> P s.
Proof.
  intros ? ? ? ? s H. assert (E : s = 0 \/ s = 1 \/ s = 2 \/ s = 3) by lia.
  destruct E as [->|[->|[->| ->]]]; assumption.
Qed.

(** Sizes of a configuration. *)
Record geometry (dt sr ns nt nh w hz : Z) : Prop := {
  g_ns : c_ns dt sr = ns; g_nt : ns / (1 + dt) = nt; g_nh : c_nh dt sr = nh; g_hz : rate_hz sr = hz;
  g_ns10 : hz = 100 * c_ns DT_10M sr; g_nt400 : hz / 400 = nt; g_ns400 : ns = (1 + dt) * nt;
  g_w : Z.max 4 (shr (ns_4m sr) 4) = w; g_width : width hz = w; g_fw : filter_width sr = Some w;
  g_w0 : 4 <= w <= 12; g_ntw : nt mod w = 0; g_nsw : (ns - nt) mod w = 0; g_wt : w <= nt <= ns;
  g_div : nh mod ns = 0; g_nh0 : w <= nh;
  g_m : 0 < c_ns DT_10M sr <= 480;
  g_lo : 4 * w <= (128 * c_ns DT_10M sr + 64) / 128;
  g_hi : (912 * c_ns DT_10M sr + 64) / 128 + 2 * w <= 4 * nh }.
Lemma geometry_ok dt sr : 0 <= dt < 4 -> 0 <= sr < 5 ->
  exists ns nt nh w hz, geometry dt sr ns nt nh w hz.
Proof.
  intros Hd Hs. exists (c_ns dt sr), (c_ns dt sr / (1 + dt)), (c_nh dt sr), (Z.max 4 (shr (ns_4m sr) 4)), (rate_hz sr).
  revert dt Hd. refine (range4 _ _ _ _ _); revert sr Hs; refine (range5 _ _ _ _ _ _);
  split; vm_compute; intuition congruence.
Qed.

Lemma cint_ok x : INT_MIN <= x <= INT_MAX -> cint x = Some x.
Proof. intros H. unfold cint. destruct (_ && _) eqn:E; [reflexivity|lia]. Qed.

Lemma scaled_pitch_ok dt sr ns nt nh w hz i : geometry dt sr ns nt nh w hz -> 0 <= i < 512 ->
  scaled_pitch sr i = Some (lag_at hz i) /\ 0 <= lag_at hz i /\ w <= lag_at hz i / 4 + w / 2 <= nh.
Proof.
  intros G Hi. pose proof (lag_of_index_range i Hi) as Hl.
  pose proof (g_ns10 _ _ _ _ _ _ _ G) as E10. pose proof (g_m _ _ _ _ _ _ _ G) as Hm.
  pose proof (g_lo _ _ _ _ _ _ _ G) as Glo. pose proof (g_hi _ _ _ _ _ _ _ G) as Ghi.
  pose proof (g_w0 _ _ _ _ _ _ _ G) as Gw. clear G.
  assert (El : lag_at hz i = (lag_of_index i * c_ns DT_10M sr + 64) / 128).
  { unfold lag_at. rewrite E10.
    replace (2 * (lag_of_index i * (100 * c_ns DT_10M sr)) + 12800) with (200 * (lag_of_index i * c_ns DT_10M sr + 64)) by lia.
    change (2 * 12800) with (200 * 128). apply Z.div_mul_cancel_l; lia. }
  unfold scaled_pitch, cmul, cadd, cdiv.
  set (m := c_ns DT_10M sr) in *. clearbody m. rewrite index_pitch_eq by lia.
  assert (Hlo : (128 * m + 64) / 128 <= lag_at hz i) by (rewrite El; apply Z.div_le_mono; nia).
  assert (Hhi : lag_at hz i <= (912 * m + 64) / 128) by (rewrite El; apply Z.div_le_mono; nia).
  assert (Hp : 0 <= lag_of_index i * m <= 1000000) by nia.
  split; [|clear - Hlo Hhi Glo Ghi Gw; generalize dependent (lag_at hz i); intros l Hlo Hhi;
    generalize dependent ((128 * m + 64) / 128); generalize dependent ((912 * m + 64) / 128); intros;
    Z.div_mod_to_equations; repeat split; lia].
  change (128 =? 0) with false. cbv iota.
  assert (HM : INT_MIN = -2147483648 /\ INT_MAX = 2147483647) by (split; reflexivity). destruct HM as (HM1 & HM2).
  rewrite cint_ok by lia. cbn [bind]. rewrite cint_ok by lia. cbn [bind].
  rewrite Z.quot_div_nonneg by lia. rewrite <- El. apply cint_ok. rewrite HM1, HM2. clear - Hp El.
  rewrite El. Z.div_mod_to_equations. lia.
Qed.

Lemma gain_index_ok dt sr nbytes : 0 <= dt < 4 -> 0 <= sr < 5 -> - 10000000 <= nbytes <= 10000000 ->
  gain_index dt sr nbytes = Some (gain_level (1 + dt) sr nbytes).
Proof.
  intros Hd Hs Hn. unfold gain_index, gain_level, cmul, cadd, csub, cdiv.
  change DT_10M with 3. change DT_2M5 with 0. change DT_5M with 1.
  change (80 =? 0) with false. change (10 =? 0) with false.
  assert (HM : INT_MIN = -2147483648 /\ INT_MAX = 2147483647) by (split; reflexivity). destruct HM as (HM1 & HM2).
  rewrite cint_ok by lia. cbn [bind]. rewrite cint_ok by lia. cbn [bind].
  replace (nbytes * 8 * (1 + 3)) with (32 * nbytes) by lia. replace (8 * nbytes * 4) with (32 * nbytes) by lia.
  assert (Hs' : 3 <= 3 + sr) by lia. generalize dependent (3 + sr). intros s3 Hs'.
  revert dt Hd. refine (range4 _ _ _ _ _); cbn [Z.add Z.eqb Pos.add Pos.eqb Pos.succ]; cbv iota;
    rewrite !cint_ok by (rewrite HM1, HM2; clear - Hn; Z.to_euclidean_division_equations; lia); cbn [bind];
    repeat (rewrite !cint_ok by (rewrite HM1, HM2; clear - Hn; Z.to_euclidean_division_equations; lia); cbn [bind]);
    f_equal; clear - Hn Hs'; Z.to_euclidean_division_equations; lia.
Qed.
