(** * Residual bits: quantization and the two modes *)
From Coq Require Import ZArith List Bool Lia ZifyBool.
From Verif Require Import Base BaseProofs BitsModel FloatModel FloatProofs ResidualModel ResidualSpec.
From Verif Require Import BitsWriteSafe BitsAbstract BitsReadSim SideProofs SpecFrame.
From Verif Require Import ResidualProofs ResidualInst.
Import ListNotations.
Local Open Scope Z_scope.

(** ** Quantization *)

Lemma mod_mult a b e : 0 <= e -> a mod 2 ^ e = 0 -> b mod 2 ^ e = 0 -> (a + b) mod 2 ^ e = 0.
Proof.
  intros He Ha Hb. pose proof (pow2_pos e He). rewrite Z.add_mod, Ha, Hb by lia. reflexivity.
Qed.
Lemma mod_pow2 c n e : 0 <= e <= n -> (c * 2 ^ n) mod 2 ^ e = 0.
Proof.
  intros H. replace n with ((n - e) + e) by lia. rewrite Z.pow_add_r by lia.
  rewrite Z.mul_assoc. apply Z.mod_mul. pose proof (pow2_pos e). lia.
Qed.

Lemma quant_off_eq hr : quant_off hr = (if hr then 4 else 3) * 2 ^ 146.
Proof. destruct hr; reflexivity. Qed.
Lemma zero_below_eq hr : zero_below hr = one - quant_off hr.
Proof. destruct hr; reflexivity. Qed.
Lemma one_145 : one = 16 * 2 ^ 145.
Proof. reflexivity. Qed.

(** The largest number below 1/2. *)
Definition below_half : Z := 2 ^ 148 - 2 ^ 124.

(** Magnitudes to code: 16 bits, 23 bits in high resolution. *)
Definition mag_bits (hr : bool) : Z := if hr then 23 else 16.

Lemma quant_div hr x : is_f32 x -> Z.abs x < (2 ^ mag_bits hr - 1) * one ->
  (hr = true -> Z.abs x <> below_half) ->
  rnd (Z.abs x + quant_off hr) / one = (Z.abs x + quant_off hr) / one.
Proof.
  intros Hf Hb Hx. set (a := Z.abs x) in *.
  assert (Ha : 0 <= a) by (unfold a; lia).
  assert (Hfa : forall k, 23 <= k -> 2 ^ k <= a -> a mod 2 ^ (k - 23) = 0).
  { intros k Hk Hka. pose proof (f32_mult x k Hf Hk Hka) as Hm. unfold a.
    destruct (Z_le_gt_dec 0 x); [rewrite Z.abs_eq by lia; exact Hm|].
    rewrite Z.abs_neq by lia. apply Z.mod_opp_l_z; [pose proof (pow2_pos (k - 23)); lia|exact Hm]. }
  clearbody a. clear Hf x.
  assert (Hoff : 0 <= quant_off hr < one /\ quant_off hr <= one / 2)
    by (destruct hr; vm_compute; intuition discriminate).
  pose proof one_pos as Hone.
  assert (Hone2 : one = 2 * (one / 2)) by reflexivity.
  set (q := (a + quant_off hr) / one).
  pose proof (Z.div_mod (a + quant_off hr) one ltac:(lia)) as Hq. fold q in Hq.
  pose proof (Z.mod_pos_bound (a + quant_off hr) one Hone) as Hr.
  assert (Hq0 : 0 <= q) by (apply Z.div_pos; lia).
  assert (HM : 2 ^ mag_bits hr <= 2 ^ 23) by (destruct hr; vm_compute; discriminate).
  assert (Hq1 : q < 2 ^ mag_bits hr) by nia.
  symmetry. apply (Z.div_unique _ _ _ (rnd (a + quant_off hr) - one * q)); [|lia].
  assert (Hlow : q * one <= rnd (a + quant_off hr)).
  { assert (E : rnd (q * one) = q * one).
    { apply (rnd_exact _ 149); [lia| |].
      - rewrite Z.abs_eq by nia. rewrite Z.pow_add_r by lia. fold one.
        rewrite Z.mul_comm. apply Z.mul_le_mono_nonneg_l; [lia|]. change (2 ^ 24) with (2 * 2 ^ 23). lia.
      - apply Z.mod_mul. lia. }
    rewrite <- E. apply rnd_mono. lia. }
  left. split; [lia|]. enough (rnd (a + quant_off hr) < (q + 1) * one) by lia.
  assert (Hoq : quant_off hr mod 2 ^ 146 = 0) by (rewrite quant_off_eq; apply Z.mod_mul; lia).
  destruct (Z_lt_le_dec a (q * one)) as [Hc|Hc].
  - (* in the first half *)
    assert (E : rnd (q * one + one / 2) = q * one + one / 2).
    { change (one / 2) with (1 * 2 ^ 148).
      replace (q * one + 1 * 2 ^ 148) with ((2 * q + 1) * 2 ^ 148) by (change one with (2 * 2 ^ 148); ring).
      apply (rnd_exact _ 148); [lia| |apply mod_pow2; lia].
      rewrite Z.abs_eq by nia. rewrite Z.pow_add_r by lia. rewrite Z.mul_comm.
      apply Z.mul_le_mono_nonneg_l; [lia|]. change (2 ^ 24) with (2 * 2 ^ 23). lia. }
    apply (Z.le_lt_trans _ (q * one + one / 2)); [|lia].
    rewrite <- E. apply rnd_mono. lia.
  - destruct (Z.eq_dec q 0) as [E0|E0].
    + rewrite E0 in *. destruct hr.
      * (* high resolution: one number is left aside *)
        specialize (Hx eq_refl).
        destruct (Z_lt_le_dec a (2 ^ 147)) as [H147|H147].
        { assert (E : rnd (3 * 2 ^ 147) = 3 * 2 ^ 147).
          { apply (rnd_exact _ 147); [lia|vm_compute; discriminate|reflexivity]. }
          apply (Z.le_lt_trans _ (3 * 2 ^ 147)); [|vm_compute; reflexivity].
          rewrite <- E. apply rnd_mono. change (quant_off true) with (2 * 2 ^ 147). lia. }
        pose proof (Hfa 147 ltac:(lia) H147) as Hm. change (147 - 23) with 124 in Hm.
        assert (Hle : a <= 2 ^ 148 - 2 * 2 ^ 124).
        { change (quant_off true) with (2 ^ 148) in *. change one with (2 ^ 149) in *.
          change (2 ^ 149) with (2 * 2 ^ 148) in *.
          pose proof (Z.div_mod a (2 ^ 124) ltac:(lia)) as Ha2. rewrite Hm in Ha2.
          unfold below_half in Hx.
          change (2 ^ 148) with (2 ^ 24 * 2 ^ 124) in *.
          set (p := 2 ^ 124) in *. assert (0 < p) by reflexivity. clearbody p.
          set (u := a / p) in *. change (2 ^ 24) with 16777216 in *. clear - Ha2 Hx Hq Hr H Ha.
          assert (u < 16777216) by nia. assert (u <> 16777215) by (intros ->; lia). nia. }
        assert (E : rnd (one - 2 ^ 125) = one - 2 ^ 125).
        { apply (rnd_exact _ 125); [lia|vm_compute; discriminate|reflexivity]. }
        apply (Z.le_lt_trans _ (one - 2 ^ 125)); [|vm_compute; reflexivity].
        rewrite <- E. apply rnd_mono. change (quant_off true) with (2 ^ 148).
        change one with (2 ^ 148 + 2 ^ 148). change (2 ^ 125) with (2 * 2 ^ 124). lia.
      * destruct (Z_lt_le_dec a (2 ^ 148)) as [H148|H148].
        { assert (E : rnd (7 * 2 ^ 146) = 7 * 2 ^ 146).
          { apply (rnd_exact _ 146); [lia|vm_compute; discriminate|reflexivity]. }
          apply (Z.le_lt_trans _ (7 * 2 ^ 146)); [|vm_compute; reflexivity].
          rewrite <- E. apply rnd_mono. change (quant_off false) with (3 * 2 ^ 146).
          change (2 ^ 148) with (4 * 2 ^ 146) in H148. lia. }
        pose proof (Hfa 148 ltac:(lia) H148) as Hm. change (148 - 23) with 125 in Hm.
        assert (E : rnd (a + quant_off false) = a + quant_off false).
        { apply (rnd_exact _ 125); [lia| |].
          - rewrite Z.abs_eq by lia. change (125 + 24) with 149. fold one. lia.
          - apply mod_mult; [lia|exact Hm|reflexivity]. }
        rewrite E. lia.
    + (* in the binade of q *)
      pose proof (Z.log2_spec q ltac:(lia)) as Hj. set (j := Z.log2 q) in *.
      assert (Hj0 : 0 <= j) by apply Z.log2_nonneg.
      assert (Hj1 : j < mag_bits hr) by (apply Z.log2_lt_pow2; lia).
      assert (Hlo : 2 ^ (149 + j) <= a).
      { rewrite Z.pow_add_r by lia. fold one. nia. }
      pose proof (Hfa (149 + j) ltac:(lia) Hlo) as Hm.
      assert (Hup : (q + 1) * one <= 2 ^ ((149 + j - 23) + 24)).
      { replace (149 + j - 23 + 24) with (Z.succ j + 149) by lia. rewrite Z.pow_add_r by lia.
        fold one. nia. }
      assert (E : rnd (a + quant_off hr) = a + quant_off hr).
      { apply (rnd_exact _ (149 + j - 23)); [lia| |].
        - rewrite Z.abs_eq by lia. lia.
        - apply mod_mult; [lia|exact Hm|]. destruct hr.
          + change (quant_off true) with (1 * 2 ^ 148). apply mod_pow2. unfold mag_bits in Hj1. lia.
          + change (quant_off false) with (3 * 2 ^ 146). apply mod_pow2. unfold mag_bits in Hj1. lia. }
      rewrite E. lia.
Qed.

Lemma quantized_div hr x q : q = Z.sgn x * ((Z.abs x + quant_off hr) / one) -> quantized hr x q.
Proof.
  intros ->. unfold quantized. cbv zeta. rewrite zero_below_eq.
  pose proof one_pos as Hone.
  assert (Hoff : 0 <= quant_off hr < one) by (destruct hr; vm_compute; intuition discriminate).
  pose proof (Z.div_mod (Z.abs x + quant_off hr) one ltac:(lia)) as Hq.
  pose proof (Z.mod_pos_bound (Z.abs x + quant_off hr) one Hone) as Hr.
  pose proof (Z.div_pos (Z.abs x + quant_off hr) one ltac:(lia) Hone) as Hp.
  set (v := (Z.abs x + quant_off hr) / one) in *. set (m := _ mod _) in *. clearbody v m.
  destruct (Z.eq_dec x 0) as [->|Hx].
  - change (Z.sgn 0 * v) with 0. change (Z.abs 0) with 0 in *. rewrite Z.mul_0_l. split; [lia|]. intros C. lia.
  - assert (Ea : Z.abs (Z.sgn x * v) = v).
    { destruct (Z.lt_trichotomy x 0) as [H|[H|H]]; [rewrite Z.sgn_neg by lia|lia|rewrite Z.sgn_pos by lia]; lia. }
    rewrite Ea. split; [lia|]. intros Hv.
    destruct (Z.lt_trichotomy x 0) as [H|[H|H]]; [rewrite (Z.sgn_neg x) in * by lia|lia|rewrite (Z.sgn_pos x) in * by lia].
    + apply Z.sgn_neg. lia.
    + apply Z.sgn_pos. lia.
Qed.

Lemma quant_f32 hr x : is_f32 x -> Z.abs x < (2 ^ mag_bits hr - 1) * one -> (hr = true -> Z.abs x <> below_half) ->
  quantized hr x (quant rnd hr x).
Proof. intros H1 H2 H3. apply quantized_div. unfold quant. rewrite quant_div by assumption. reflexivity. Qed.

Lemma quant_exact hr x : quantized hr x (quant (fun v => v) hr x).
Proof. apply quantized_div. reflexivity. Qed.

(** ** High resolution *)
Section HighResolution.
Variable fl : Z -> Z.
Hypothesis fl_opp : forall x, fl (- x) = - fl x.
Hypothesis fl_mono : forall x y, x <= y -> fl x <= fl y.
Hypothesis fl_exact : forall x e, 0 <= e -> Z.abs x <= 2 ^ (e + 24) -> x mod 2 ^ e = 0 -> fl x = x.
Let lim := res_lim true.

Definition P_hr (it : nat) (o o1 o2 : Z) (c : cell) : Prop :=
  exists k, 0 <= k /\ k + Z.of_nat it = 20 /\ o = 2 ^ (147 - k) /\ o1 = o /\ o2 = o /\
    signed c /\ 0 <= c_O c /\ 0 <= c_E c /\
    ((c_E c < lim /\ c_D c = 0 /\ c_O c < lim /\ c_m c = 0) \/
     (lim <= c_E c /\ 2 ^ 148 + 2 ^ (148 - k) <= c_D c /\ lim <= c_O c /\ 0 <= c_m c)).

Lemma lim_hr : lim = 2 ^ 148.
Proof. reflexivity. Qed.

Lemma fl_half : fl (2 ^ 148) = 2 ^ 148.
Proof. apply (fl_exact _ 125); [lia|vm_compute; discriminate|reflexivity]. Qed.

Lemma fl_lower k : 0 <= k <= 20 -> fl (2 ^ 148 + 2 ^ (148 - k)) = 2 ^ 148 + 2 ^ (148 - k).
Proof.
  intros Hk. apply (fl_exact _ 128); [lia| |].
  - pose proof (pow2_pos (148 - k) ltac:(lia)). rewrite Z.abs_eq by lia.
    pose proof (Z.pow_le_mono_r 2 (148 - k) 148 ltac:(lia) ltac:(lia)).
    change (2 ^ (128 + 24)) with (16 * 2 ^ 148). lia.
  - apply mod_mult; [lia|reflexivity|].
    replace (2 ^ (148 - k)) with (1 * 2 ^ (148 - k)) by lia. apply mod_pow2. lia.
Qed.

Lemma half_step k : 0 <= k <= 19 -> 2 ^ (147 - k) * lim / one = 2 ^ (147 - (k + 1)) /\
  2 ^ (147 - k) / 2 = 2 ^ (147 - (k + 1)).
Proof.
  intros Hk. replace (147 - k) with ((147 - (k + 1)) + 1) by lia. rewrite Z.pow_add_r by lia.
  change (2 ^ 1) with 2. split.
  - replace (2 ^ (147 - (k + 1)) * 2 * lim) with (2 ^ (147 - (k + 1)) * one)
      by (rewrite lim_hr; change one with (2 * 2 ^ 148); lia).
    apply Z.div_mul. discriminate.
  - apply Z.div_mul. discriminate.
Qed.

Lemma up_ge c : lim <= c_E c -> up lim c = true -> one <= c_E c.
Proof.
  intros H1 H2. unfold up in H2. destruct (Z_le_gt_dec one (c_E c)) as [|Hc]; [assumption|].
  rewrite Z.mod_small in H2 by (rewrite lim_hr in *; pose proof (pow2_pos 148); lia). lia.
Qed.

Lemma P_hr_enc k c : 0 <= k <= 20 -> lim <= c_E c ->
  lim <= fl (if up lim c then c_E c - 2 ^ (147 - k) else c_E c + 2 ^ (147 - k)).
Proof.
  intros Hk HE. pose proof lim_hr as Hlim. pose proof fl_half as Hh. rewrite <- Hlim in Hh.
  apply (Z.le_trans _ (fl lim)); [lia|]. apply fl_mono.
  pose proof (pow2_pos (147 - k) ltac:(lia)).
  destruct (up lim c) eqn:Eu; [|lia].
  pose proof (up_ge c HE Eu) as H1. change one with (2 * 2 ^ 148) in H1.
  pose proof (Z.pow_le_mono_r 2 (147 - k) 148 ltac:(lia) ltac:(lia)). lia.
Qed.

Lemma P_hr_dec k D o (b : bool) : 0 <= k <= 19 -> o = 2 ^ (147 - k) -> 2 ^ 148 + 2 ^ (148 - k) <= D ->
  2 ^ 148 + 2 ^ (148 - (k + 1)) <= fl (if b then D + o else D - o).
Proof.
  intros Hk -> HD. rewrite <- (fl_lower (k + 1)) by lia. apply fl_mono.
  replace (148 - k) with ((147 - k) + 1) in HD by lia. rewrite Z.pow_add_r in HD by lia.
  change (2 ^ 1) with 2 in HD. replace (148 - (k + 1)) with (147 - k) by lia.
  pose proof (pow2_pos (147 - k) ltac:(lia)). destruct b; lia.
Qed.

Lemma P_hr_agree it o o1 o2 c : P_hr (S it) o o1 o2 c -> agree lim c.
Proof.
  intros (k & Hk & Hit & -> & -> & -> & Hs & HO & HE & H).
  pose proof (pow2_pos (148 - k) ltac:(lia)). rewrite lim_hr in *. pose proof (pow2_pos 148 ltac:(lia)).
  split; [exact Hs|]. change (res_lim true) with (2 ^ 148). lia.
Qed.
Lemma P_hr_step it o o1 o2 c : P_hr (S it) o o1 o2 c ->
  P_hr it (o * lim / one) (o1 / 2) (o2 / 2) (if active lim c then step_c fl lim o o1 o2 c else c).
Proof.
  intros (k & Hk & Hit & -> & -> & -> & Hs & HO & HE & H).
  destruct (half_step k ltac:(lia)) as (-> & ->).
  exists (k + 1). split; [lia|]. split; [lia|]. split; [reflexivity|]. split; [reflexivity|].
  split; [reflexivity|]. unfold active. destruct H as [(H1 & H2 & H3 & H4)|(H1 & H2 & H3 & H4)].
  - replace (lim <=? c_E c) with false by lia. split; [exact Hs|]. split; [exact HO|]. split; [exact HE|]. auto.
  - replace (lim <=? c_E c) with true by lia.
    pose proof (P_hr_enc k c ltac:(lia) H1) as He.
    pose proof (P_hr_dec k (c_D c) _ (up lim c) ltac:(lia) eq_refl H2) as Hd.
    unfold step_c, signed. cbn [c_s c_O c_E c_D c_m].
    split; [exact Hs|]. split; [exact HO|].
    split; [pose proof lim_hr as HL; pose proof (pow2_pos 148 ltac:(lia)); lia|].
    right. split; [exact He|]. split; [exact Hd|]. split; [exact H3|lia].
Qed.
Lemma P_hr_nonzero it o o1 o2 c : P_hr (S it) o o1 o2 c -> active lim c = true ->
  c_D (step_c fl lim o o1 o2 c) <> 0.
Proof.
  intros (k & Hk & Hit & -> & -> & -> & Hs & HO & HE & H). unfold active. intros Ha.
  destruct H as [(H1 & _)|(H1 & H2 & _)]; [lia|].
  pose proof (P_hr_dec k (c_D c) _ (up lim c) ltac:(lia) eq_refl H2) as Hd.
  cbn [step_c c_D]. pose proof (pow2_pos 148 ltac:(lia)). pose proof (pow2_pos (148 - (k + 1)) ltac:(lia)). lia.
Qed.

Lemma P_hr_final it o o1 o2 c : P_hr it o o1 o2 c -> fin true (same_zero true) c.
Proof.
  intros (k & Hk & Hit & -> & -> & -> & Hs & HO & HE & H).
  unfold fin, same_zero. change (zero_below true) with lim.
  replace (Z.abs (c_orig c)) with (c_O c) by (unfold c_orig; destruct Hs as [-> | ->]; lia).
  pose proof (pow2_pos 148 ltac:(lia)) as Hp1. pose proof (pow2_pos (148 - k) ltac:(lia)) as Hp2.
  rewrite lim_hr in *.
  destruct H as [(H1 & H2 & H3 & H4)|(H1 & H2 & H3 & H4)].
  - replace (c_O c <? 2 ^ 148) with true by lia. split; [|split; [exact Hs|lia]].
    unfold c_dec. rewrite H2. split; [lia|exact H4].
  - replace (c_O c <? 2 ^ 148) with false by lia. split; [|split; [exact Hs|lia]].
    split; [exact H4|]. unfold c_dec, c_orig. rewrite !Z.sgn_mul.
    rewrite (Z.sgn_pos (c_D c)), (Z.sgn_pos (c_O c)) by lia. reflexivity.
Qed.

Lemma P_hr_init x : quantized true x (quant fl true x) ->
  P_hr (res_iters true) (res_lim true / 2) (one / 4) (one / 4) (cell_of fl true x).
Proof.
  intros (Hq & _). change (zero_below true) with lim in Hq.
  exists 0. split; [lia|]. split; [reflexivity|]. split; [reflexivity|]. split; [reflexivity|].
  split; [reflexivity|]. unfold cell_of, signed. cbn [c_s c_O c_E c_D c_m].
  split; [destruct (x <? 0); auto|]. split; [lia|]. split; [lia|].
  set (q := quant fl true x) in *. clearbody q.
  change (2 ^ 148 + 2 ^ (148 - 0)) with one. rewrite lim_hr in *. change one with (2 * 2 ^ 148) in *.
  set (h := 2 ^ 148) in *. assert (0 < h) by reflexivity. clearbody h.
  destruct (Z.eq_dec q 0) as [->|Hq0].
  - left. change (Z.abs 0) with 0 in *. lia.
  - right. nia.
Qed.
End HighResolution.

(** High resolution, single precision: encoder and decoder stay in step. *)
Lemma residual_hr xs n : Forall (fun x => quantized true x (quant rnd true x)) xs ->
  exists bits ys ms,
    Forall is_bit bits /\
    (forall w, put_residual rnd w n true xs = fold_left wstep (map bit_op bits) w) /\
    Reads (fun r => get_residual rnd r n true (map (fun x => quant rnd true x * one) xs)) (map bit_op bits) ys /\
    length ys = length xs /\ length ms = length xs /\
    Forall2 (fun x p => same_zero true x (fst p) (snd p)) xs (combine ys ms) /\
    in_turn true 20 n xs ms (zlen bits).
Proof.
  intros H.
  apply (residual_inst rnd rnd_opp rnd_nonneg true P_hr (same_zero true)
    P_hr_agree (P_hr_step rnd rnd_mono rnd_exact) (P_hr_nonzero rnd rnd_mono rnd_exact) P_hr_final).
  eapply Forall_impl; [|exact H]. intros x. exact (P_hr_init rnd x).
Qed.

(** ** High resolution, exact arithmetic *)
Definition ident (v : Z) : Z := v.

Definition P_hx (it : nat) (o o1 o2 : Z) (c : cell) : Prop :=
  P_hr it o o1 o2 c /\
  (res_lim true <= c_E c -> c_m c = 20 - Z.of_nat it /\
     exists Q d, c_E c = Q * one + d /\ c_D c + c_E c = Q * one + c_O c /\
       Z.abs d <= 2 ^ (148 - c_m c) /\ - 2 ^ 148 <= d < 2 ^ 148).

Lemma P_hx_agree it o o1 o2 c : P_hx (S it) o o1 o2 c -> agree (res_lim true) c.
Proof. intros [H _]. eapply P_hr_agree. exact H. Qed.

Lemma ident_mono x y : x <= y -> ident x <= ident y.
Proof. intros H. exact H. Qed.
Lemma ident_exact x e : 0 <= e -> Z.abs x <= 2 ^ (e + 24) -> x mod 2 ^ e = 0 -> ident x = x.
Proof. reflexivity. Qed.

Lemma P_hx_step it o o1 o2 c : P_hx (S it) o o1 o2 c ->
  P_hx it (o * res_lim true / one) (o1 / 2) (o2 / 2)
    (if active (res_lim true) c then step_c ident (res_lim true) o o1 o2 c else c).
Proof.
  intros [H HE]. split; [apply (P_hr_step ident ident_mono ident_exact); exact H|].
  destruct H as (k & Hk & Hit & -> & -> & -> & Hs & HO & HE0 & H).
  unfold active. destruct (res_lim true <=? c_E c) eqn:Ea; [|lia].
  intros _. destruct (HE ltac:(lia)) as (Hm & Q & d & H1 & H2 & H3 & H4). clear HE.
  unfold step_c. cbn [c_s c_O c_E c_D c_m]. unfold ident.
  split; [lia|].
  assert (Hu : up (res_lim true) c = negb (d <? 0)).
  { unfold up. rewrite H1, Z.add_comm, Z.mod_add by discriminate. change (res_lim true) with (2 ^ 148).
    destruct (d <? 0) eqn:Ed; cbn [negb].
    - replace (d mod one) with (d + one).
      + change one with (2 * 2 ^ 148). lia.
      + apply (Z.mod_unique _ _ (-1)); [left|]; change one with (2 * 2 ^ 148); lia.
    - rewrite Z.mod_small by (change one with (2 * 2 ^ 148); lia). lia. }
  rewrite Hu. replace (c_m c) with k in * by lia.
  replace (148 - k) with ((147 - k) + 1) in H3 by lia. rewrite Z.pow_add_r in H3 by lia.
  change (2 ^ 1) with 2 in H3. replace (148 - (k + 1)) with (147 - k) by lia.
  pose proof (pow2_pos (147 - k) ltac:(lia)) as Hp.
  pose proof (Z.pow_le_mono_r 2 (147 - k) 147 ltac:(lia) ltac:(lia)) as Hp2.
  change (2 ^ 148) with (2 * 2 ^ 147) in *.
  set (p := 2 ^ (147 - k)) in *. clearbody p.
  destruct (d <? 0) eqn:Ed; cbn [negb].
  - exists Q, (d + p). lia.
  - exists Q, (d - p). lia.
Qed.

Lemma P_hx_nonzero it o o1 o2 c : P_hx (S it) o o1 o2 c -> active (res_lim true) c = true ->
  c_D (step_c ident (res_lim true) o o1 o2 c) <> 0.
Proof. intros [H _]. eapply (P_hr_nonzero ident ident_mono ident_exact). exact H. Qed.

Lemma P_hx_final it o o1 o2 c : P_hx it o o1 o2 c -> fin true (refined true) c.
Proof.
  intros [H HE]. pose proof (P_hr_final it o o1 o2 c H) as (F1 & F2 & F3 & F4).
  split; [|auto]. split; [exact F1|]. intros Hx.
  destruct H as (k & Hk & Hit & -> & -> & -> & Hs & HO & HE0 & H).
  replace (Z.abs (c_orig c)) with (c_O c) in Hx by (unfold c_orig; destruct Hs as [-> | ->]; lia).
  change (zero_below true) with (res_lim true) in Hx.
  destruct H as [H|H]; [lia|].
  destruct (HE ltac:(lia)) as (Hm & Q & d & H1 & H2 & H3 & H4).
  cbn [res_bound]. transitivity (Z.abs d); [|exact H3].
  unfold c_orig, c_dec. destruct Hs as [-> | ->]; lia.
Qed.

Lemma P_hx_init x :
  P_hx (res_iters true) (res_lim true / 2) (one / 4) (one / 4) (cell_of ident true x).
Proof.
  pose proof (quant_exact true x) as Hq. change (fun v : Z => v) with ident in Hq.
  split; [apply P_hr_init; exact Hq|].
  unfold cell_of. cbn [c_s c_O c_E c_D c_m]. intros Hx. split; [reflexivity|].
  destruct Hq as [Hq _]. change (zero_below true) with (2 ^ 148) in Hq.
  set (q := quant ident true x) in *. clearbody q.
  exists (Z.abs q), (Z.abs x - Z.abs q * one). change (148 - 0) with 148.
  change one with (2 * 2 ^ 148) in *. set (h := 2 ^ 148) in *. clearbody h. lia.
Qed.

Lemma residual_hr_exact xs n :
  exists bits ys ms,
    Forall is_bit bits /\
    (forall w, put_residual ident w n true xs = fold_left wstep (map bit_op bits) w) /\
    Reads (fun r => get_residual ident r n true (map (fun x => quant ident true x * one) xs)) (map bit_op bits) ys /\
    length ys = length xs /\ length ms = length xs /\
    Forall2 (fun x p => refined true x (fst p) (snd p)) xs (combine ys ms) /\
    in_turn true 20 n xs ms (zlen bits).
Proof.
  apply (residual_inst ident (fun x => eq_refl) (fun a H => H) true P_hx (refined true)
    P_hx_agree P_hx_step P_hx_nonzero P_hx_final).
  apply Forall_forall. intros x _. exact (P_hx_init x).
Qed.

(** ** Other modes *)
Definition P_lr (it : nat) (o o1 o2 : Z) (c : cell) : Prop :=
  match it with
  | O => fin false (refined false) c
  | S O => o1 = 5 * one / 16 /\ o2 = 3 * one / 16 /\ signed c /\ 0 <= c_O c /\ c_E c = c_O c /\ c_m c = 0 /\
      exists q, 0 <= q <= 2 ^ 16 /\ c_D c = q * one /\
        q * one - 3 * one / 8 <= c_O c < q * one + 5 * one / 8
  | _ => False
  end.

Lemma units_lr : one = 16 * 2 ^ 145 /\ zero_below false = 10 * 2 ^ 145 /\ res_lim false = 10 * 2 ^ 145 /\
  3 * one / 8 = 6 * 2 ^ 145 /\ 5 * one / 8 = 10 * 2 ^ 145 /\ 5 * one / 16 = 5 * 2 ^ 145 /\
  3 * one / 16 = 3 * 2 ^ 145.
Proof. repeat split. Qed.

Lemma P_lr_fin c q b : signed c -> 0 <= c_O c -> 0 <= q ->
  q * one - 3 * one / 8 <= c_O c < q * one + 5 * one / 8 -> (q = 0 -> c_D c = 0 /\ c_m c = 0) ->
  0 <= c_m c -> b = res_bound false (c_m c) -> (0 < q -> 0 < c_D c /\ Z.abs (c_D c - c_O c) <= b) ->
  fin false (refined false) c.
Proof.
  intros Hs HO Hq H H0 Hm Hb H1. unfold fin, refined, same_zero.
  replace (Z.abs (c_orig c)) with (c_O c) by (unfold c_orig; destruct Hs as [-> | ->]; lia).
  replace (Z.abs (c_dec c - c_orig c)) with (Z.abs (c_D c - c_O c))
    by (unfold c_orig, c_dec; destruct Hs as [-> | ->]; lia).
  rewrite <- Hb. clear Hb.
  destruct units_lr as (E1 & E2 & _ & E4 & E5 & _). rewrite E2. rewrite E4, E5, E1 in H. clear E1 E2 E4 E5.
  set (h := 2 ^ 145) in *. assert (0 < h) by reflexivity. clearbody h.
  assert (Hsg : 0 < c_D c -> 0 < c_O c -> Z.sgn (c_dec c) = Z.sgn (c_orig c)).
  { intros P1 P2. unfold c_dec, c_orig. rewrite !Z.sgn_mul.
    rewrite (Z.sgn_pos (c_D c)), (Z.sgn_pos (c_O c)) by lia. reflexivity. }
  assert (Hz : c_D c = 0 -> c_dec c = 0) by (intros D0; unfold c_dec; rewrite D0; lia).
  destruct (Z.eq_dec q 0) as [Hq0|Hq0].
  - destruct (H0 Hq0) as [D0 M0]. subst q. replace (c_O c <? 10 * h) with true by lia.
    split; [split; [split; auto|lia]|]. split; [exact Hs|]. lia.
  - specialize (H1 ltac:(lia)). assert (10 * h <= c_O c) by nia.
    replace (c_O c <? 10 * h) with false by lia.
    split; [split; [split; [lia|apply Hsg; lia]|lia]|]. split; [exact Hs|]. lia.
Qed.

Lemma P_lr_final it o o1 o2 c : P_lr it o o1 o2 c -> fin false (refined false) c.
Proof.
  destruct it as [|[|it]]; [intros H; exact H| |intros []].
  intros (_ & _ & Hs & HO & HE & Hm & q & Hq & HD & H).
  apply (P_lr_fin c q (5 * one / 8)); try assumption; try lia.
  - rewrite Hm. reflexivity.
  - intros Hq1. rewrite HD. destruct units_lr as (E1 & E2 & _ & E4 & E5 & _).
    rewrite E4, E5, E1 in H. rewrite E5, E1.
    set (h := 2 ^ 145) in *. assert (0 < h) by reflexivity. clearbody h. nia.
Qed.

Lemma P_lr_agree it o o1 o2 c : P_lr (S it) o o1 o2 c -> agree (res_lim false) c.
Proof.
  destruct it as [|it]; [|intros []].
  intros (_ & _ & Hs & HO & HE & Hm & q & Hq & HD & H).
  split; [exact Hs|]. destruct units_lr as (E1 & _ & E3 & E4 & E5 & _).
  rewrite E4, E5, E1 in H. rewrite E1 in HD. rewrite E3.
  set (h := 2 ^ 145) in *. assert (Hh : 0 < h) by reflexivity. clearbody h.
  rewrite HE, HD. split; [lia|]. split; [nia|]. clear - Hq H Hh HO.
  destruct (Z.eq_dec q 0) as [->|Hq0]; [lia|]. split; intros; nia.
Qed.

Lemma P_lr_dec c q (Hq : 0 <= q <= 2 ^ 16) : c_D c = q * one ->
  q * one - 3 * one / 8 <= c_O c < q * one + 5 * one / 8 -> c_E c = c_O c ->
  active (res_lim false) c = true ->
  0 < q /\
  let D' := rnd (if up (res_lim false) c then c_D c + 5 * one / 16 else c_D c - 3 * one / 16) in
  0 < D' /\ Z.abs (D' - c_O c) <= 5 * one / 16.
Proof.
  intros HD H HE Ha. unfold active in Ha. unfold up. rewrite HE in *. rewrite HD. clear HD HE.
  destruct units_lr as (E1 & _ & E3 & E4 & E5 & E6 & E7).
  rewrite E4, E5 in H. rewrite E3 in *. rewrite E6, E7. clear E3 E4 E5 E6 E7.
  set (O := c_O c) in *. clearbody O.
  assert (Hq0 : 0 < q).
  { rewrite E1 in *. set (h := 2 ^ 145) in *. assert (0 < h) by reflexivity. clearbody h. nia. }
  split; [exact Hq0|]. cbv zeta.
  set (d := O - q * one).
  assert (Hu : (O mod one <? 10 * 2 ^ 145) = negb (d <? 0)).
  { replace O with (d + q * one) by (unfold d; lia). rewrite Z.mod_add by discriminate.
    destruct (d <? 0) eqn:Ed; cbn [negb].
    - replace (d mod one) with (d + one).
      + rewrite E1 in *. lia.
      + apply (Z.mod_unique _ _ (-1)); [left|]; rewrite E1 in *; lia.
    - rewrite Z.mod_small by (rewrite E1 in *; lia). lia. }
  rewrite Hu. clear Hu.
  assert (Hr : forall v, 0 <= v <= 2 ^ 16 * 16 + 16 -> rnd (v * 2 ^ 145) = v * 2 ^ 145).
  { intros v Hv. apply (rnd_exact _ 145); [lia| |apply Z.mod_mul; discriminate].
    rewrite Z.abs_eq by nia. rewrite Z.pow_add_r by lia. rewrite Z.mul_comm.
    apply Z.mul_le_mono_nonneg_l; [lia|]. change (2 ^ 24) with 16777216.
    change (2 ^ 16 * 16 + 16) with 1048592 in Hv. lia. }
  destruct (d <? 0) eqn:Ed; cbn [negb].
  - replace (q * one - 3 * 2 ^ 145) with ((16 * q - 3) * 2 ^ 145) by (rewrite E1; ring).
    rewrite Hr by lia. unfold d in *. rewrite E1 in *. clear E1 Hr.
    set (h := 2 ^ 145) in *. assert (0 < h) by reflexivity. clearbody h. nia.
  - replace (q * one + 5 * 2 ^ 145) with ((16 * q + 5) * 2 ^ 145) by (rewrite E1; ring).
    rewrite Hr by lia. unfold d in *. rewrite E1 in *. clear E1 Hr.
    set (h := 2 ^ 145) in *. assert (0 < h) by reflexivity. clearbody h. nia.
Qed.

Lemma P_lr_step it o o1 o2 c : P_lr (S it) o o1 o2 c ->
  P_lr it (o * res_lim false / one) (o1 / 2) (o2 / 2)
    (if active (res_lim false) c then step_c rnd (res_lim false) o o1 o2 c else c).
Proof.
  destruct it as [|it]; [|intros []]. intros H0.
  destruct (active (res_lim false) c) eqn:Ea; [|apply (P_lr_final _ _ _ _ _ H0)].
  destruct H0 as (-> & -> & Hs & HO & HE & Hm & q & Hq & HD & H).
  destruct (P_lr_dec c q Hq HD H HE Ea) as (Hq0 & Hd).
  cbn [P_lr]. unfold step_c.
  apply (P_lr_fin _ q (5 * one / 16)); cbn [c_s c_O c_E c_D c_m]; try assumption; try lia.
  - rewrite Hm. reflexivity.
  - intros _. exact Hd.
Qed.
Lemma P_lr_nonzero it o o1 o2 c : P_lr (S it) o o1 o2 c -> active (res_lim false) c = true ->
  c_D (step_c rnd (res_lim false) o o1 o2 c) <> 0.
Proof.
  destruct it as [|it]; [|intros []]. intros H0 Ea.
  destruct H0 as (-> & -> & Hs & HO & HE & Hm & q & Hq & HD & H).
  destruct (P_lr_dec c q Hq HD H HE Ea) as (Hq0 & Hd).
  cbv zeta in Hd. unfold step_c. cbn [c_D]. destruct Hd as [Hd _]. intros E. rewrite E in Hd. lia.
Qed.

Lemma P_lr_init x : is_f32 x -> Z.abs x < (2 ^ mag_bits false - 1) * one ->
  P_lr (res_iters false) (res_lim false / 2) (5 * one / 16) (3 * one / 16) (cell_of rnd false x).
Proof.
  intros Hf Hb. pose proof (quant_f32 false x Hf) as Hq.
  destruct Hq as [Hq _]; [exact Hb|discriminate|]. change (2 ^ mag_bits false - 1) with 65535 in Hb.
  cbn [res_iters P_lr]. unfold cell_of, signed. cbn [c_s c_O c_E c_D c_m].
  split; [reflexivity|]. split; [reflexivity|]. split; [destruct (x <? 0); auto|]. split; [lia|].
  split; [reflexivity|]. split; [reflexivity|].
  set (q := quant rnd false x) in *. clearbody q.
  exists (Z.abs q). destruct units_lr as (E1 & E2 & E3 & E4 & E5 & E6 & E7).
  rewrite E2, E1 in Hq. rewrite E4, E5, E1. rewrite E1 in Hb.
  change (2 ^ 16) with 65536 in *. set (h := 2 ^ 145) in *. assert (0 < h) by reflexivity. clearbody h.
  split; [split; [lia|]; nia|]. split; [reflexivity|]. lia.
Qed.

Lemma residual_lr xs n : Forall (fun x => is_f32 x /\ Z.abs x < (2 ^ mag_bits false - 1) * one) xs ->
  exists bits ys ms,
    Forall is_bit bits /\
    (forall w, put_residual rnd w n false xs = fold_left wstep (map bit_op bits) w) /\
    Reads (fun r => get_residual rnd r n false (map (fun x => quant rnd false x * one) xs)) (map bit_op bits) ys /\
    length ys = length xs /\ length ms = length xs /\
    Forall2 (fun x p => refined false x (fst p) (snd p)) xs (combine ys ms) /\
    in_turn false 1 n xs ms (zlen bits).
Proof.
  intros H.
  apply (residual_inst rnd rnd_opp rnd_nonneg false P_lr (refined false)
    P_lr_agree P_lr_step P_lr_nonzero P_lr_final).
  eapply Forall_impl; [|exact H]. intros x [H1 H2]. exact (P_lr_init x H1 H2).
Qed.
