(** * The time domain analysis of the encoder with the kernels of ARM *)
From Coq Require Import ZArith List Bool Lia.
From Verif Require Import Base BaseProofs ConfigModel ConfigSpec ConfigProofs SideModel LtpfTables LtpfModel LtpfProofs FrontModel FrontSpec FrontHp50 FrontProofs FrontPitch FrontRun SimdTables SimdModel SimdProofs.
Import ListNotations.
Local Open Scope Z_scope.

Lemma refines_sbind (Q : Prop) {A B} (m' m : M A) (f' f : A -> M B) P : refines m' m -> spec Q m P -> (forall a, P a -> refines (f' a) (f a)) -> refines (bindm m' f') (bindm m f).
Proof.
  unfold refines, spec, bindm. intros H G K. destruct m as [[a o]|]; [|exact I]. destruct H as (o' & -> & Ho). destruct G as [G _]. specialize (K a G).
  destruct (f a) as [[b o2]|]; [|exact I]. destruct K as (o2' & -> & Ho2). exists (o' || o2'). split; [reflexivity|]. destruct o', o2'; intros; destruct o, o2; auto.
Qed.

Section kernels.
  Context {F : Type} (zero : F) (add sub mul div : F -> F -> F) (sqrt : F -> F) (lt le : F -> F -> bool)
    (ofz lit : Z -> F)
    (k_res : Z -> Z * Z -> list Z -> Z -> list Z -> Z -> Z -> M (list Z * (Z * Z)))
    (k_dot : list Z -> Z -> list Z -> Z -> Z -> M F)
    (k_cor : nat -> list Z -> Z -> list Z -> Z -> Z -> M (list F)) (Q : Prop).

  (** With the portable kernels, this is the portable analysis. *)
  Lemma kernels_portable : front_run_k zero add sub mul div sqrt lt le ofz lit resample_12k8 (dot ofz) (correlate ofz) = front_run zero add sub mul div sqrt lt le ofz lit.
  Proof. reflexivity. Qed.

  Hypothesis Hres : forall dt sr hp x y py, 0 <= dt < 4 -> 0 <= sr < 7 -> Forall s16 x -> c_nt sr + c_ns dt sr <= zlen x ->
    refines (k_res sr hp x (c_nt sr) y py ((1 + dt) * 32)) (resample_12k8 sr hp x (c_nt sr) y py ((1 + dt) * 32)).
  Hypothesis Hdot : forall a pa b pb n, wide_ok Q a -> wide_ok Q b -> 0 <= n -> 0 <= pa -> pa + n <= zlen a -> 0 <= pb -> pb + n <= zlen b ->
    refines (k_dot a pa b pb n) (dot ofz a pa b pb n).
  Hypothesis Hcor : forall nc a pa b pb n, wide_ok Q a -> wide_ok Q b -> Z.even pa = true -> (0 < nc)%nat -> Z.of_nat nc mod 4 <> 0 -> 0 <= n -> 0 <= pa -> pa + n <= zlen a ->
    0 <= pb -> Z.of_nat nc - 1 <= pb -> pb + n <= zlen b -> refines (k_cor nc a pa b pb n) (correlate ofz nc a pa b pb n).

  Lemma norm_corr_refines x px p1 n rm : wide_ok Q x -> 0 <= n <= 128 -> 0 <= px -> px + n <= zlen x -> 0 <= p1 -> p1 + n <= zlen x ->
    refines (norm_corr_k zero mul div sqrt le k_dot x px p1 n rm) (norm_corr zero mul div sqrt le ofz x px p1 n rm).
  Proof.
    intros Hx Hn H1 H2 H3 H4. unfold norm_corr_k, norm_corr. destruct (le rm zero); [apply refines_refl|].
    apply refines_bind; [apply Hdot; auto; lia|]. intros a. apply refines_bind; [apply Hdot; auto; lia|]. intros b. apply refines_refl.
  Qed.

  Lemma detect_pitch_refines tc x px n : wide_ok Q x -> 0 <= n <= 128 -> 114 <= px -> Z.even px = true -> px + n <= zlen x -> 0 <= tc <= 97 ->
    refines (detect_pitch_k zero add mul div sqrt lt le ofz lit k_dot k_cor tc x px n) (detect_pitch zero add mul div sqrt lt le ofz lit tc x px n).
  Proof.
    intros Hx Hn H1 Ev H2 Htc. unfold detect_pitch_k, detect_pitch. cbv zeta.
    eapply (refines_sbind Q); [apply Hcor; auto; try lia; discriminate|apply correlate_spec; first [assumption | lia]|]. intros r Hr. cbv beta in Hr.
    change (Z.of_nat (Z.to_nat 98)) with 98 in Hr.
    eapply (refines_sbind Q); [apply refines_refl|apply argmax_weighted_spec; lia|]. intros [t1 rm1] T1. cbv beta in T1. cbn [fst] in T1.
    eapply (refines_sbind Q); [apply refines_refl|apply argmax_spec; lia|]. intros [t2 rm2] T2. cbn [fst] in T2.
    apply refines_bind; [apply norm_corr_refines; try assumption; lia|]. intros nc1.
    apply refines_bind; [apply norm_corr_refines; try assumption; lia|]. intros nc2. apply refines_refl.
  Qed.

  Lemma refine_pitch_refines x px n tc : wide_ok Q x -> 0 <= n <= 128 -> 232 <= px -> Z.even px = true -> px + n <= zlen x -> 17 <= tc <= 114 ->
    refines (refine_pitch_k zero add mul lt lit k_cor x px n tc) (refine_pitch zero add mul lt ofz lit x px n tc).
  Proof.
    intros Hx Hn H1 Ev H2 Htc. unfold refine_pitch_k, refine_pitch. cbv zeta.
    set (r0 := Z.max 32 (2 * tc - 4)). set (nr := Z.min 228 (2 * tc + 4) - r0 + 1).
    assert (Hr0 : 32 <= r0 <= 224 /\ 1 <= nr <= 9 /\ r0 + nr <= 229) by (unfold nr, r0; lia).
    assert (Ho : exists k, nr = 2 * k + 1) by (unfold nr, r0; exists ((Z.min 114 (tc + 2) - Z.max 16 (tc - 2))); lia). clearbody r0 nr.
    apply refines_bind; [apply refines_refl|]. intros _.
    apply refines_bind; [|intros r; apply refines_refl]. apply Hcor; auto; try lia. rewrite Z2Nat.id by lia. destruct Ho as (k & ->). Z.div_mod_to_equations. lia.
  Qed.

  Lemma ltpf_analyse_refines dt sr st x d0 :
    0 <= dt < 4 -> 0 <= sr < 7 -> ana_ok Q st -> Forall s16 x -> (Q -> Forall (amp (amp_limit sr)) x) -> c_nt sr + c_ns dt sr <= zlen x ->
    refines (ltpf_analyse_k zero add sub mul div sqrt lt le ofz lit k_res k_dot k_cor dt sr st x (c_nt sr) d0)
      (ltpf_analyse zero add sub mul div sqrt lt le ofz lit dt sr st x (c_nt sr) d0).
  Proof.
    intros Hdt Hsr [A1 A2 A3 A4 A5 A6] Hx HA H2. unfold ltpf_analyse_k, ltpf_analyse. cbv zeta.
    eapply (refines_sbind Q); [apply refines_refl|apply shift_down_spec; [exact A2|lia]|]. intros x12 [L12 M12].
    eapply (refines_sbind Q); [apply Hres; assumption|apply resample_12k8_spec; try assumption; lia|]. intros [y12 hp] (L & M & Hhp). cbn [fst snd] in *.
    assert (L' : zlen y12 = 384) by congruence. clear x12 L12 M12 L.
    assert (Hn6 : shr ((1 + dt) * 32) 1 = (1 + dt) * 16) by (unfold shr; change (2 ^ 1) with 2; rewrite <- (Z.div_mul ((1 + dt) * 16) 2) by lia; f_equal; lia).
    rewrite Hn6. clear Hn6.
    eapply (refines_sbind Q); [apply refines_refl|apply shift_down_spec; [exact A4|lia]|]. intros x6 [L6 M6].
    set (p12 := 384 - (1 + dt) * 32 - (if dt =? DT_7M5 then 44 else 24)).
    assert (Hp12 : (dt = 2 /\ p12 = 244) \/ (dt <> 2 /\ p12 = 384 - (1 + dt) * 32 - 24)).
    { unfold p12, DT_7M5. destruct (Z.eqb_spec dt 2); [subst; left; auto|right; auto]. }
    clearbody p12.
    eapply (refines_sbind Q); [apply refines_refl|apply resample_6k4_spec; try assumption; lia|]. intros y6 [L6' M6'].
    assert (L6'' : zlen y6 = 178) by congruence. clear x6 L6 M6 L6'.
    set (g := if dt =? DT_2M5 then _ else _).
    assert (Hg : exists q12 q6 n12 n6, g = (q12, q6, n12, n6) /\ 232 <= q12 /\ q12 + n12 < 384 /\ 114 <= q6 /\ q6 + n6 <= 178 /\
      0 <= n12 <= 128 /\ n12 mod 4 = 0 /\ 0 <= n6 <= 128 /\ Z.even q12 = true /\ Z.even q6 = true).
    { unfold g, DT_2M5. assert (E : dt = 0 \/ dt = 1 \/ dt = 2 \/ dt = 3) by lia.
      destruct E as [->|[->|[->| ->]]]; cbn [Z.eqb]; assert (Hp : exists c, p12 = 2 * c) by (eexists (p12 / 2); Z.div_mod_to_equations; lia); destruct Hp as (c & Hc);
      eexists _, _, _, _; (split; [reflexivity|]); repeat split; try lia; replace p12 with (2 * c) by lia; try rewrite Z.even_mul; try reflexivity.
      rewrite Z.even_sub, Z.even_mul. reflexivity. }
    clearbody g. destruct Hg as (q12 & q6 & n12 & n6 & -> & G1 & G2 & G3 & G4 & G5 & G6 & G7 & G8 & G9).
    eapply (refines_sbind Q); [apply detect_pitch_refines; first [apply mem_wide, M6' | assumption | lia]|apply detect_pitch_spec; first [apply mem_wide, M6' | assumption | lia]|]. intros [[present tc] tc'] [T1 T2].
    apply refines_bind; [|intros; apply refines_refl]. destruct present; [|apply refines_refl].
    eapply (refines_sbind Q); [apply refine_pitch_refines; first [apply mem_wide, M | assumption | lia]|apply refine_pitch_spec; first [apply mem_wide, M | assumption | lia]|]. intros [pitch idx] (e & f & Hf & E).
    assert (Hpi : 128 <= pitch <= 912) by (pose proof (pitch_bounds e f Hf) as P; rewrite <- E in P; exact P).
    eapply (refines_sbind Q); [apply refines_refl|apply interpolate_spec; try assumption; lia|]. intros u [Lu Wu].
    assert (Hs : 32 <= shr pitch 2 <= 228) by (unfold shr; Z.div_mod_to_equations; lia).
    assert (Hl : 0 <= Z.land pitch 3 < 4) by (change 3 with (Z.ones 2); rewrite Z.land_ones by lia; apply Z.mod_pos_bound; lia).
    eapply (refines_sbind Q); [apply refines_refl|apply interpolate_spec; try assumption; lia|]. intros v [Lv Wv].
    apply refines_bind; [apply Hdot; auto; lia|]. intros a. apply refines_bind; [apply Hdot; auto; lia|]. intros b. apply refines_bind; [apply Hdot; auto; lia|]. intros c. apply refines_refl.
  Qed.

  Definition state_ok (dt sr : Z) (st : front F) : Prop :=
    zlen (f_xt st) = c_nt sr + c_ns dt sr /\ Forall s16 (f_xt st) /\ (Q -> Forall (amp (amp_limit sr)) (f_xt st)) /\ ana_ok Q (f_ltpf st).
  Definition pcm_ok (dt sr : Z) (k : call * ltpf_data) : Prop :=
    zlen (k_pcm (fst k)) = c_ns dt sr /\ Forall s16 (k_pcm (fst k)) /\ (Q -> Forall (amp (amp_limit sr)) (k_pcm (fst k))).

  Lemma Forall_firstn {A} (P : A -> Prop) n l : Forall P l -> Forall P (firstn n l).
  Proof. intros H. apply Forall_forall. intros v Hv. rewrite Forall_forall in H. apply H. rewrite <- (firstn_skipn n l). apply in_or_app. left. exact Hv. Qed.
  Lemma Forall_skipn {A} (P : A -> Prop) n l : Forall P l -> Forall P (skipn n l).
  Proof. intros H. apply Forall_forall. intros v Hv. rewrite Forall_forall in H. apply H. rewrite <- (firstn_skipn n l). apply in_or_app. right. exact Hv. Qed.

  Lemma front_run_refines dt sr bypass : 0 <= dt < 4 -> 0 <= sr < 7 -> 0 <= c_nt sr -> 0 <= c_ns dt sr -> forall ks st, Forall (pcm_ok dt sr) ks -> state_ok dt sr st ->
    refines (front_run_k zero add sub mul div sqrt lt le ofz lit k_res k_dot k_cor dt sr bypass st ks) (front_run zero add sub mul div sqrt lt le ofz lit dt sr bypass st ks).
  Proof.
    intros Hdt Hsr Hnt Hns. induction ks as [|[k d0] ks IH]; intros st Hk (S1 & S2 & S3 & S4); cbn [front_run_k front_run]; [apply refines_refl|].
    apply Forall_cons_iff in Hk as ((K1 & K2 & K3) & Hk). cbn [fst] in *.
    set (xt := firstn (Z.to_nat (c_nt sr)) (f_xt st) ++ k_pcm k).
    assert (X1 : zlen xt = c_nt sr + c_ns dt sr) by (unfold xt; rewrite zlen_app, K1; unfold zlen in *; rewrite firstn_length; lia).
    assert (X2 : Forall s16 xt) by (apply Forall_app; split; [apply Forall_firstn, S2|exact K2]).
    assert (X3 : Q -> Forall (amp (amp_limit sr)) xt) by (intros q; apply Forall_app; split; [apply Forall_firstn, S3, q|exact (K3 q)]).
    unfold front_frame_k, front_frame. cbv zeta. fold xt. rewrite ?bindm_assoc.
    apply refines_bind; [apply refines_refl|]. intros _. rewrite ?bindm_assoc.
    apply refines_bind; [apply refines_refl|]. intros att. rewrite ?bindm_assoc.
    assert (N : forall ana, ana_ok Q ana -> state_ok dt sr (mkFront (snd att) ana (firstn (Z.to_nat (c_nt sr)) (skipn (Z.to_nat (c_ns dt sr)) xt) ++ skipn (Z.to_nat (c_nt sr)) xt))).
    { intros ana Ha. unfold state_ok. cbn [f_xt f_ltpf]. split; [unfold zlen in *; rewrite app_length, firstn_length, !skipn_length; lia|].
      split; [apply Forall_app; split; [apply Forall_firstn, Forall_skipn, X2|apply Forall_skipn, X2]|]. split; [|exact Ha].
      intros q. apply Forall_app; split; [apply Forall_firstn, Forall_skipn, X3, q|apply Forall_skipn, X3, q]. }
    eapply (refines_sbind Q) with (P := fun r => ana_ok Q (snd (fst r))).
    - destruct bypass; [apply refines_refl|]. apply ltpf_analyse_refines; try assumption. lia.
    - destruct bypass; [apply s_ret; exact S4|].
      eapply s_weaken; [apply (ltpf_analyse_spec zero add sub mul div sqrt lt le ofz lit Q dt sr (f_ltpf st) xt (c_nt sr) d0); try assumption; lia|].
      intros [[pp ana] d] H. exact (proj1 H).
    - intros [[pp ana] d] Ha. cbn [fst snd] in Ha. rewrite !bindm_ret. apply refines_bind; [|intros; apply refines_refl]. apply IH; [exact Hk|apply N, Ha].
  Qed.
End kernels.

(** The sizes of the calls of the resamplers. *)
Lemma geometry dt sr : 0 <= dt < 4 -> 0 <= sr < 7 ->
  Z.even (c_nt sr) = true /\ taps sr <= c_nt sr /\ Z.even (c_ns dt sr) = true /\ snd (ratio sr) * ((1 + dt) * 32) <= fst (ratio sr) * c_ns dt sr.
Proof.
  intros Hd Hs. assert (K : forallb (fun dt => forallb (fun sr => Z.even (c_nt sr) && (taps sr <=? c_nt sr) && Z.even (c_ns dt sr) && (snd (ratio sr) * ((1 + dt) * 32) <=? fst (ratio sr) * c_ns dt sr))
    (map Z.of_nat (seq 0 (Z.to_nat 7)))) (map Z.of_nat (seq 0 (Z.to_nat 4))) = true) by (vm_compute; reflexivity).
  rewrite forallb_forall in K. specialize (K dt (in_range_z 4 dt Hd)). cbv beta in K. rewrite forallb_forall in K. specialize (K sr (in_range_z 7 sr Hs)). cbv beta in K.
  apply andb_prop in K as (K & K4). apply andb_prop in K as (K & K3). apply andb_prop in K as (K1 & K2). repeat split; try assumption; lia.
Qed.
Lemma wide_sym (Q : Prop) a : Q -> wide_ok Q a -> Forall sym16 a.
Proof. intros q [_ H]. specialize (H q). eapply Forall_impl; [|exact H]. unfold amp, sym16. cbv beta. intros v Hv. lia. Qed.

Section runs.
  Context {F : Type} (zero : F) (add sub mul div : F -> F -> F) (sqrt : F -> F) (lt le : F -> F -> bool)
    (ofz lit : Z -> F).

  Lemma run_arm_refines dt sr bypass : 0 <= dt < 4 -> 0 <= sr < 7 -> 0 <= c_nt sr -> 0 <= c_ns dt sr -> forall ks st, Forall (pcm_ok False dt sr) ks -> state_ok False dt sr st ->
    refines (front_run_arm zero add sub mul div sqrt lt le ofz lit dt sr bypass st ks) (front_run zero add sub mul div sqrt lt le ofz lit dt sr bypass st ks).
  Proof.
    apply front_run_refines.
    - intros dt0 sr0 hp x y py Hd Hs Sx Hl. destruct (geometry dt0 sr0 Hd Hs) as (G1 & G2 & G3 & G4). apply even_half in G3 as (K & HK).
      apply (arm_resample_12k8_refines sr0 hp x (c_nt sr0) y py _ K); try assumption; lia.
    - intros. apply refines_refl.
    - intros nc a pa b pb n [Sa _] [Sb _] H1 H2 _ H4 H5 H6 H7 H8 H9. apply arm_correlate_refines; assumption.
  Qed.
  Lemma run_neon_refines dt sr bypass : 0 <= dt < 4 -> 0 <= sr < 7 -> 0 <= c_nt sr -> 0 <= c_ns dt sr -> forall ks st, Forall (pcm_ok True dt sr) ks -> state_ok True dt sr st ->
    refines (front_run_neon zero add sub mul div sqrt lt le ofz lit dt sr bypass st ks) (front_run zero add sub mul div sqrt lt le ofz lit dt sr bypass st ks).
  Proof.
    apply front_run_refines.
    - intros dt0 sr0 hp x y py Hd Hs Sx Hl. destruct (geometry dt0 sr0 Hd Hs) as (G1 & G2 & G3 & G4).
      apply (neon_resample_12k8_refines sr0 hp x (c_nt sr0) y py _ (c_ns dt0 sr0)); try assumption; lia.
    - intros a pa b pb n Ha [Sb _] H1 H2 H3 H4 H5. apply neon_dot_refines; try assumption. apply (wide_sym True); auto.
    - intros nc a pa b pb n Ha [Sb _] H1 H2 H3 H4 H5 H6 H7 H8 H9. apply neon_correlate_refines; try assumption; [apply (wide_sym True); auto|left; exact H3].
  Qed.
End runs.
