(** * The front end over any sequence of frames *)
From Coq Require Import ZArith List Bool Lia.
From Verif Require Import Base BaseProofs ConfigModel ConfigSpec ConfigProofs SideModel LtpfModel LtpfSpec LtpfProofs
  FrontModel FrontSpec FrontHp50 FrontProofs FrontPitch FrontAttack.
Import ListNotations.
Local Open Scope Z_scope.

Lemma nth_skipn' {A} (l : list A) n i d : nth i (skipn n l) d = nth (n + i) l d.
Proof. revert n. induction l as [|a l IH]; intros [|n]; cbn [skipn]; auto; destruct i; auto; rewrite ?IH; auto. Qed.
Lemma nth_firstn' {A} (l : list A) n i d : (i < n)%nat -> nth i (firstn n l) d = nth i l d.
Proof.
  revert n i. induction l as [|a l IH]; intros [|n] i H; cbn [firstn]; auto; try lia. destruct i as [|i]; [reflexivity|].
  cbn [nth]. apply IH. lia.
Qed.
Lemma znth_skipn {A} (l : list A) n i d : 0 <= n -> 0 <= i -> znth (skipn (Z.to_nat n) l) i d = znth l (n + i) d.
Proof.
  intros H1 H2. unfold znth. destruct (Z.ltb_spec i 0), (Z.ltb_spec (n + i) 0); try lia. rewrite nth_skipn', Z2Nat.inj_add by lia. reflexivity.
Qed.
Lemma znth_firstn {A} (l : list A) n i d : 0 <= i < n -> znth (firstn (Z.to_nat n) l) i d = znth l i d.
Proof. intros H. unfold znth. destruct (Z.ltb_spec i 0); [lia|]. apply nth_firstn'. lia. Qed.
Lemma zlen_firstn {A} (l : list A) n : 0 <= n <= zlen l -> zlen (firstn (Z.to_nat n) l) = n.
Proof. unfold zlen. intros H. rewrite firstn_length. lia. Qed.
Lemma zlen_skipn {A} (l : list A) n : 0 <= n <= zlen l -> zlen (skipn (Z.to_nat n) l) = zlen l - n.
Proof. unfold zlen. intros H. rewrite skipn_length. lia. Qed.
Lemma Forall_firstn' {A} (P : A -> Prop) l n : Forall P l -> Forall P (firstn n l).
Proof. intros H. rewrite <- (firstn_skipn n l) in H. apply Forall_app in H as [H _]. exact H. Qed.
Lemma Forall_skipn' {A} (P : A -> Prop) l n : Forall P l -> Forall P (skipn n l).
Proof. intros H. rewrite <- (firstn_skipn n l) in H. apply Forall_app in H as [_ H]. exact H. Qed.

(** Geometry of the sample buffer. *)
Lemma front_geometry hr dt_us hz : supported hr dt_us hz ->
  let dt := resolve_dt dt_us hr in let sr := resolve_srate hz hr in
  0 <= dt < 4 /\ 0 <= sr < 7 /\ samples dt_us hz = c_ns dt sr /\ 0 <= c_nt sr <= c_ns dt sr /\ is_hr sr = hr /\
  dt_us / 2500 = 1 + dt /\ 0 < c_ns dt sr.
Proof. intros H. cbv zeta. supported_case H; vm_compute; repeat split; congruence. Qed.

(** The frames of the calls are those of the stream from frame [n]. *)
Fixpoint calls_at (ns : Z) (X : stream) (n : Z) (ks : list (call * ltpf_data)) : Prop :=
  match ks with
  | [] => True
  | (k, _) :: ks => zlen (k_pcm k) = ns /\ Forall s16 (k_pcm k) /\
      (forall i, 0 <= i < ns -> znth (k_pcm k) i 0 = X (ns * n + i)) /\ calls_at ns X (n + 1) ks
  end.

(** The history in the buffer of samples. *)
Definition xt_ok (nt ns : Z) (X : stream) (n : Z) (xt : list Z) : Prop :=
  zlen xt = nt + ns /\ Forall s16 xt /\ forall i, 0 <= i < nt -> znth xt i 0 = X (ns * n - nt + i).

Lemma xt_load nt ns X n xt pcm : 0 <= nt <= ns -> xt_ok nt ns X n xt -> zlen pcm = ns -> Forall s16 pcm ->
  (forall i, 0 <= i < ns -> znth pcm i 0 = X (ns * n + i)) ->
  let xt' := firstn (Z.to_nat nt) xt ++ pcm in
  zlen xt' = nt + ns /\ Forall s16 xt' /\ (forall i, 0 <= i < nt + ns -> znth xt' i 0 = X (ns * n - nt + i)).
Proof.
  intros Hn (H1 & H2 & H3) L S E. cbv zeta.
  assert (Lf : zlen (firstn (Z.to_nat nt) xt) = nt) by (apply zlen_firstn; lia).
  split; [rewrite zlen_app; lia|]. split; [apply Forall_app; split; [apply Forall_firstn'|]; assumption|].
  intros i Hi. destruct (Z.lt_ge_cases i nt).
  - rewrite znth_app_l by lia. rewrite znth_firstn by lia. apply H3. lia.
  - rewrite znth_app_r by lia. rewrite Lf, E by lia. f_equal. lia.
Qed.

Lemma xt_save nt ns X n xt : 0 <= nt <= ns ->
  zlen xt = nt + ns -> Forall s16 xt -> (forall i, 0 <= i < nt + ns -> znth xt i 0 = X (ns * n - nt + i)) ->
  xt_ok nt ns X (n + 1) (firstn (Z.to_nat nt) (skipn (Z.to_nat ns) xt) ++ skipn (Z.to_nat nt) xt).
Proof.
  intros Hn L S E.
  assert (Lf : zlen (firstn (Z.to_nat nt) (skipn (Z.to_nat ns) xt)) = nt) by (apply zlen_firstn; rewrite zlen_skipn; lia).
  split; [rewrite zlen_app, Lf, zlen_skipn; lia|].
  split; [apply Forall_app; split; [apply Forall_firstn', Forall_skipn'|apply Forall_skipn']; assumption|].
  intros i Hi. rewrite znth_app_l by lia. rewrite znth_firstn, znth_skipn, E by lia. f_equal. lia.
Qed.

(** What is proved of the data of a frame: [d0] is the content before. *)
Definition out_ok (bypass hr : bool) (d0 : ltpf_data) (o : outcome) : Prop :=
  if bypass then o_present o = false /\ o_data o = d0 else
  (l_active (o_data o) = 0 \/ l_active (o_data o) = 1 /\ o_present o = true /\ hr = false) /\
  (o_present o = true -> exists e f, found e f /\ (o_pitch o, l_pitch (o_data o)) = pitch_out e f).

Section floats.
  Context {F : Type} (zero : F) (add sub mul div : F -> F -> F) (sqrt : F -> F) (lt le : F -> F -> bool)
    (ofz lit : Z -> F).
  Notation front_frame := (front_frame zero add sub mul div sqrt lt le ofz lit).
  Notation front_run := (front_run zero add sub mul div sqrt lt le ofz lit).

  Lemma run_ok hr dt_us hz bypass (Q : Prop) X : supported hr dt_us hz ->
    let dt := resolve_dt dt_us hr in let sr := resolve_srate hz hr in
    let ns := c_ns dt sr in let nt := c_nt sr in
    (Q -> bypass = false -> forall t, Z.abs (X t) <= amp_limit sr) ->
    forall ks n st a e prev,
    calls_at ns X n ks -> xt_ok nt ns X n (f_xt st) -> att_ok (dt_us / 2500) (f_att st) a e prev -> ana_ok Q (f_ltpf st) ->
    spec Q (front_run dt sr bypass st ks)
      (fun r => map o_att (fst r) = flags hr dt_us hz X n a e prev (map (fun k => k_nbytes (fst k)) ks) /\
                Forall2 (fun k o => out_ok bypass hr (snd k) o) ks (fst r)).
  Proof.
    intros Hsup dt sr ns nt HA. pose proof (front_geometry hr dt_us hz Hsup) as G. cbv zeta in G. fold dt sr in G.
    destruct G as (G1 & G2 & G3 & G4 & G5 & G6 & G7). fold ns nt in G3, G4, G7.
    induction ks as [|[k d0] ks IH]; intros n st a e prev Hk Hxt Hatt Hana; cbn [FrontModel.front_run map].
    { apply s_ret. cbn [fst map flags]. split; constructor. }
    cbn [calls_at] in Hk. destruct Hk as (K1 & K2 & K3 & K4).
    destruct (xt_load nt ns X n (f_xt st) (k_pcm k) G4 Hxt K1 K2 K3) as (L1 & L2 & L3).
    pose proof (xt_save nt ns X n _ G4 L1 L2 L3) as Hxt'.
    cbn [flags fst].
    pose proof (attdet_run_ok hr dt_us hz (k_nbytes k) (f_att st) (firstn (Z.to_nat nt) (f_xt st) ++ k_pcm k) X n a e prev Hsup L2 L1) as HT.
    cbv zeta in HT. fold dt sr ns nt in HT. rewrite L1 in HT. specialize (HT L3 Hatt).
    set (xt := firstn (Z.to_nat nt) (f_xt st) ++ k_pcm k) in *.
    assert (HT' : exists att st' a' e' prev', attdet_run dt sr (k_nbytes k) (f_att st) xt nt = ret (att, st') /\
      att_ok (dt_us / 2500) st' a' e' prev' /\
      flags hr dt_us hz X n a e prev (k_nbytes k :: map (fun k => k_nbytes (fst k)) ks) =
      att :: flags hr dt_us hz X (n + 1) a' e' prev' (map (fun k => k_nbytes (fst k)) ks)).
    { cbn [flags]. destruct (works hr dt_us hz (k_nbytes k)).
      - destruct HT as (st' & E & Hst'). eexists _, st', _, _, _. split; [exact E|]. split; [exact Hst'|].
        destruct (last_block a e _) as [a' e']. reflexivity.
      - exists false, (f_att st), a, e, prev. auto. }
    clear HT. destruct HT' as (att & st' & a' & e' & prev' & Ea & Hatt' & Ef). cbn [flags] in Ef. rewrite Ef. clear Ef.
    eapply (s_bind Q _ _ (fun r => let '(at_, pp, d, st1) := r in
      at_ = att /\ out_ok bypass hr d0 (mkOut at_ pp d (n_pitch (f_ltpf st1))) /\
      f_att st1 = st' /\ ana_ok Q (f_ltpf st1) /\ xt_ok nt ns X (n + 1) (f_xt st1))).
    { unfold FrontModel.front_frame. fold ns nt. cbv zeta.
      eapply s_bind; [apply s_assert, andb_true_iff; split; apply Z.eqb_eq; [exact K1|apply Hxt]|]. intros _ _.
      fold xt. rewrite Ea, bind_ret. cbn [fst snd].
      destruct bypass.
      - rewrite bind_ret. apply s_ret. cbn [f_att f_ltpf f_xt].
        split; [reflexivity|]. split; [split; reflexivity|]. split; [reflexivity|]. split; [exact Hana|exact Hxt'].
      - eapply s_bind; [apply (ltpf_analyse_spec zero add sub mul div sqrt lt le ofz lit Q dt sr (f_ltpf st) xt nt d0); try assumption|].
        + intros q. specialize (HA q eq_refl). apply Forall_forall. intros v Hv.
          destruct (In_nth _ _ 0 Hv) as (i & Hi & <-). specialize (L3 (Z.of_nat i)).
          unfold znth in L3. rewrite Nat2Z.id in L3. unfold zlen in L1. destruct (Z.ltb_spec (Z.of_nat i) 0); [lia|].
          unfold amp. rewrite L3 by lia. apply HA.
        + apply Z.le_refl.
        + lia.
        + intros [[pp ana'] d] (O1 & O2 & O3 & O4 & O5). apply s_ret. cbn [f_att f_ltpf f_xt].
          split; [reflexivity|]. split; [|split; [reflexivity|split; [exact O1|exact Hxt']]].
          split; cbn [o_data o_present o_pitch]; [|exact O4].
          destruct O2 as [O2|(O2 & O6 & O7)]; [left; exact O2|right]. split; [exact O2|]. split; [exact O6|].
          rewrite <- G5. unfold is_hr, SRATE_48K_HR. apply Z.leb_gt. exact O7. }
    intros [[[at_ pp] d] st1] (-> & O1 & O3 & O4 & O5).
    rewrite <- O3 in Hatt'.
    eapply s_bind; [apply (IH (n + 1) st1 a' e' prev' K4 O5 Hatt' O4)|]. intros [outs st2] (R1 & R2). apply s_ret.
    cbn [fst map o_att] in *. split; [rewrite R1; reflexivity|]. constructor; [exact O1|exact R2].
  Qed.

  Lemma init_ok hr dt_us hz (Q : Prop) X : supported hr dt_us hz -> (forall t, t < 0 -> X t = 0) ->
    let dt := resolve_dt dt_us hr in let sr := resolve_srate hz hr in
    let st := front_init zero dt sr in
    xt_ok (c_nt sr) (c_ns dt sr) X 0 (f_xt st) /\ att_ok (dt_us / 2500) (f_att st) 0 0 [] /\ ana_ok Q (f_ltpf st).
  Proof.
    intros Hsup HX dt sr st. pose proof (front_geometry hr dt_us hz Hsup) as G. cbv zeta in G. fold dt sr in G.
    destruct G as (G1 & G2 & G3 & G4 & G5 & G6 & G7).
    assert (Hrep : forall n (P : Z -> Prop), P 0 -> Forall P (repeat 0 n)).
    { intros n P H. apply Forall_forall. intros v Hv. apply repeat_spec in Hv. rewrite Hv. exact H. }
    assert (S0 : s16 0) by (unfold s16; lia). assert (A0 : amp y_limit 0) by (unfold amp, y_limit; cbn; lia).
    unfold st, front_init. cbn [f_xt f_att f_ltpf]. split; [|split].
    - split; [rewrite zlen_repeat; lia|]. split; [apply Hrep, S0|]. intros i Hi. rewrite HX by lia.
      unfold znth. destruct (i <? 0); [reflexivity|]. apply nth_repeat.
    - constructor; cbn [at_an1 at_en1 at_patt]; try reflexivity; try (unfold en_ok; lia).
      rewrite skipn_nil. cbn [any existsb]. apply Z.leb_gt. pose proof (Z.div_pos (dt_us / 2500) 2). lia.
    - constructor; cbn [n_x12k8 n_x6k4 n_hp n_tc]; try (rewrite zlen_repeat; reflexivity); try (split; intros; apply Hrep; assumption); try lia.
      intros _. apply hp_inv_init.
  Qed.
End floats.

(** The stream of the calls. *)
Lemma stream_calls ns : 0 < ns -> forall ks (n : nat) (pre : list (list Z)) ,
  Forall (fun l => zlen l = ns) pre -> n = length pre ->
  Forall (fun k => zlen (k_pcm (fst k)) = ns /\ Forall s16 (k_pcm (fst k))) ks ->
  calls_at ns (stream_of (pre ++ map (fun k : call * ltpf_data => k_pcm (fst k)) ks)) (Z.of_nat n) ks.
Proof.
  intros Hns. induction ks as [|[k d0] ks IH]; intros n pre Hp Hn Hk; cbn [calls_at map]; [trivial|].
  pose proof (Forall_inv Hk) as [L S]. pose proof (Forall_inv_tail Hk) as Hk'. cbn [fst] in *.
  split; [exact L|]. split; [exact S|]. split.
  - intros i Hi. unfold stream_of. assert (0 <= ns * Z.of_nat n) by (apply Z.mul_nonneg_nonneg; lia).
    destruct (Z.ltb_spec (ns * Z.of_nat n + i) 0); [lia|]. rewrite concat_app. cbn [concat].
    assert (Lc : zlen (concat pre) = ns * Z.of_nat n).
    { subst n. clear - Hp. induction pre as [|p pre IHp]; [cbn; lia|]. cbn [concat length]. rewrite zlen_app, IHp by exact (Forall_inv_tail Hp).
      rewrite (Forall_inv Hp). lia. }
    unfold zlen in Lc, L. rewrite app_nth2 by lia. rewrite app_nth1 by lia.
    unfold znth. destruct (Z.ltb_spec i 0); [lia|]. f_equal. lia.
  - replace (Z.of_nat n + 1) with (Z.of_nat (Datatypes.S n)) by lia.
    replace (pre ++ k_pcm k :: map (fun k => k_pcm (fst k)) ks) with ((pre ++ [k_pcm k]) ++ map (fun k : call * ltpf_data => k_pcm (fst k)) ks)
      by (rewrite <- app_assoc; reflexivity).
    apply IH; [apply Forall_app; split; [exact Hp|constructor; [exact L|constructor]]|rewrite app_length; cbn [length]; lia|exact Hk'].
Qed.
