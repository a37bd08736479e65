(** * C37: global gain of the spectrum *)
From Coq Require Import Reals ZArith List Bool Lia Lra ZifyBool.
From Verif Require Import Base BaseProofs ConfigModel FloatModel SpecModel SpecSpec BudgetModel BudgetSpec BudgetFrame P_Budget GainModel GainProofs GainFloat.
Import ListNotations.
Local Open Scope Z_scope.

(** ** The index *)

(** The inputs of the search: energies of the blocks given by [db_q16], counts of bits of a
    frame of 20 to 625 bytes. *)
Definition gain_inputs (sr nbytes nbits budget : Z) (es : list Z) : Prop :=
  0 <= sr < 7 /\ 0 <= nbytes /\ Z.abs nbits <= 6000 /\ Z.abs budget <= 5000 /\ zlen es <= 240 /\ (forall e, In e es -> energy e).

Lemma estimate_ok sr nbytes nbits budget es fits z : gain_inputs sr nbytes nbits budget es ->
  let g_off := gain_offset sr nbytes in let lim := nbits * k_1u4 in let C g := cost (g * k_20_28) es in
  (INT_MAX < C (127 - g_off) /\ estimate_gain nbits g_off es fits z = None) \/
  (C (127 - g_off) <= INT_MAX /\ exists g gm reset, estimate_gain nbits g_off es fits z = Some (g, gm, reset) /\
    - g_off <= gm <= g /\ g <= 255 - g_off /\
    (gm = 255 - g_off \/ fits gm = true) /\ (gm = - g_off \/ fits (gm - 1) = false) /\
    (g = gm \/ (z = false /\ reset = false /\ (g = 255 - g_off \/ C g <= lim) /\ (g = - g_off \/ lim < C (g - 1))))).
Proof.
  intros (Hs & Hb & Hn & _ & Hl & He). cbv zeta. pose proof (gain_offset_range sr nbytes Hs Hb) as Ho. set (g_off := gain_offset sr nbytes) in *. clearbody g_off.
  unfold estimate_gain. rewrite search_steps_eq.
  destruct (search_ok nbits es He Hn Hl 8 (255 - g_off) (rev es)) as [(E & _ & V)|(g' & E & R & K & P1 & P2)]; try lia.
  - intros gn _. reflexivity.
  - left. replace (255 - g_off - 128) with (127 - g_off) in V by lia. split; [exact V|]. rewrite E. reflexivity.
  - right. specialize (K eq_refl). replace (255 - g_off - 128) with (127 - g_off) in K by lia. split; [exact K|]. rewrite E. cbn [bind].
    change (2 ^ Z.of_nat 8) with 256 in *. pose proof (search_min_ok fits 8 (255 - g_off)) as M. cbv zeta in M. set (gm := search_min (steps 8) fits (255 - g_off)) in *. clearbody gm.
    change (2 ^ Z.of_nat 8) with 256 in M. destruct M as (Rm & M1 & M2).
    exists (if (g' <? gm) || z then gm else g'), gm, ((g' <? gm) || z). split; [reflexivity|].
    split; [destruct ((g' <? gm) || z) eqn:B; lia|]. split; [destruct ((g' <? gm) || z); lia|]. split; [exact M1|]. split; [destruct M2 as [M2|M2]; [left; lia|right; exact M2]|].
    destruct ((g' <? gm) || z) eqn:B; [left; reflexivity|right]. split; [destruct z; [rewrite orb_true_r in B; discriminate|reflexivity]|]. split; [reflexivity|]. split; [exact P1|].
    destruct P2 as [P2|P2]; [left; lia|right; exact P2].
Qed.

(** The quantized coefficients are in the range of the coder with the gains from one that
    fits to the last one, which fits. *)
Definition quantized (dt sr last : Z) (fits : Z -> bool) (q : Z -> list Z) : Prop :=
  fits last = true /\ forall gm g, fits gm = true -> gm <= g <= last -> spectrum_ok dt sr (q g).

Lemma analyze_inv dt sr nbytes budget nbits es fits z q :
  gain_inputs sr nbytes nbits budget es -> 0 <= dt <= 3 -> quantized dt sr (255 - gain_offset sr nbytes) fits q ->
  let g_off := gain_offset sr nbytes in
  (INT_MAX < cost ((127 - g_off) * k_20_28) es /\ spec_analyze dt sr nbytes budget nbits es fits z q = None) \/
  (cost ((127 - g_off) * k_20_28) es <= INT_MAX /\ exists g_idx nq lsb gm, spec_analyze dt sr nbytes budget nbits es fits z q = Some (g_idx, nq, lsb) /\
     - g_off <= gm <= 255 - g_off /\ gm <= g_idx - g_off /\ g_idx <= 255 /\ fits gm = true).
Proof.
  intros Hi Hd Hq. cbv zeta. pose proof Hi as (Hs & Hb & _ & Hbu & _ & _). pose proof (gain_offset_range sr nbytes Hs Hb) as Ho.
  pose proof (estimate_ok sr nbytes nbits budget es fits z Hi) as E. cbv zeta in E. set (g_off := gain_offset sr nbytes) in *.
  destruct E as [[V E]|(V & g & gm & reset & E & R1 & R2 & M1 & _ & _)].
  - left. split; [exact V|]. unfold spec_analyze. fold g_off. rewrite E. reflexivity.
  - right. split; [exact V|]. unfold spec_analyze. fold g_off. rewrite E. cbn [bind]. clearbody g_off. destruct Hq as [Hq0 Hq].
    assert (M : fits gm = true) by (destruct M1 as [->|M1]; assumption).
    destruct (compute_nbits dt sr nbytes (q g) 0) as [[n0 nb] l0] eqn:E0.
    pose proof (C26_counts_bounded dt sr nbytes (q g) 0 n0 nb l0 Hd ltac:(lia) (Hq gm g M ltac:(lia)) E0) as B.
    destruct (adjust_ok dt sr (g_off + g) nb budget (g_off + gm)) as (a & Ea & Ra & _); try lia.
    rewrite Ea. cbn [bind]. destruct (compute_nbits dt sr nbytes (q (g + a)) budget) as [[nq nb2] lsb].
    exists (g + a + g_off), nq, lsb, gm. split; [reflexivity|]. split; [lia|]. split; [lia|]. split; [lia|exact M].
Qed.

(** C37: the index written in the frame, whatever the spectrum, is in 0..255, and the
    analysis is defined, provided that the costs at the first step of the search fit an
    [int]; it overflows otherwise. *)
Theorem C37_gain_index_partial dt sr nbytes budget nbits es fits z q :
  gain_inputs sr nbytes nbits budget es -> 0 <= dt <= 3 -> quantized dt sr (255 - gain_offset sr nbytes) fits q ->
  (cost ((127 - gain_offset sr nbytes) * k_20_28) es <= INT_MAX <->
   exists g_idx nq lsb, spec_analyze dt sr nbytes budget nbits es fits z q = Some (g_idx, nq, lsb)) /\
  (forall g_idx nq lsb, spec_analyze dt sr nbytes budget nbits es fits z q = Some (g_idx, nq, lsb) -> 0 <= g_idx <= 255).
Proof.
  intros Hi Hd Hq. destruct (analyze_inv dt sr nbytes budget nbits es fits z q Hi Hd Hq) as [[V E]|(V & i & n & l & gm & E & R1 & R2 & R3 & _)]; rewrite E.
  - split; [|intros; discriminate]. split; [lia|]. intros (? & ? & ? & ?). discriminate.
  - split; [|intros g_idx nq lsb H; injection H as <- _ _; lia]. split; [intros _; exists i, n, l; reflexivity|intros _; exact V].
Qed.
Print Assumptions C37_gain_index_partial.

(** C37: without the limits of the quantizer, the gain is the least one whose cost is in the
    budget. *)
Theorem C37_least_gain sr nbytes nbits budget es fits g gm :
  gain_inputs sr nbytes nbits budget es ->
  let g_off := gain_offset sr nbytes in
  estimate_gain nbits g_off es fits false = Some (g, gm, false) ->
  g = gm \/ ((g = 255 - g_off \/ cost (g * k_20_28) es <= nbits * k_1u4) /\
             forall g', - g_off <= g' < g -> nbits * k_1u4 < cost (g' * k_20_28) es).
Proof.
  intros Hi g_off E. destruct (estimate_ok sr nbytes nbits budget es fits false Hi) as [[_ E']|(_ & g1 & gm1 & r1 & E' & R1 & R2 & M1 & M2 & P)]; cbv zeta in *.
  - fold g_off in E'. rewrite E' in E. discriminate.
  - fold g_off in E', R1, R2, M1, M2, P. rewrite E' in E. injection E as -> -> ->. destruct P as [P|(_ & _ & P1 & P2)]; [left; exact P|right]. split; [exact P1|].
    intros g' Hg'. destruct P2 as [P2|P2]; [lia|]. pose proof (cost_mono (g' * k_20_28) ((g - 1) * k_20_28) es ltac:(unfold k_20_28; lia)). lia.
Qed.
Print Assumptions C37_least_gain.

(** 10 ms at 48 kHz, 100 bytes, 100 blocks at 40 dB or less. *)
Definition ex_es : list Z := map (fun i => (40 - Z.of_nat i / 3) * 2 ^ 16) (seq 0 100).
Example C37_example :
  gain_inputs 4 100 700 700 ex_es /\ gain_offset 4 100 = 146 /\
  estimate_gain 700 146 ex_es (fun g => -30 <=? g) false = Some (30, -30, false) /\
  spec_analyze 3 4 100 700 700 ex_es (fun g => -30 <=? g) false (fun _ => [1; 0]) = Some (175, 2, false) /\
  spec_analyze 3 4 100 700 700 ex_es (fun g => 38 <=? g) false (fun _ => [1; 0]) = Some (184, 2, false).
Proof.
  split; [|vm_compute; repeat split; reflexivity]. unfold gain_inputs. repeat split; try lia; [vm_compute; discriminate|..];
  (apply in_map_iff in H; destruct H as (i & <- & I); apply in_seq in I; assert (0 <= Z.of_nat i / 3 <= 34) by (Z.div_mod_to_equations; lia); unfold e_min, e_max; lia).
Qed.

(** ** No overflow for frames up to 400 bytes without the high resolution mode, when the
    energy of the blocks is at most 130 dB. *)
Theorem C37_no_overflow dt sr nbytes es : 0 <= dt <= 3 -> 0 <= sr < SRATE_48K_HR -> 0 <= nbytes <= 400 ->
  zlen es = c_ne dt sr / 4 -> (forall e, In e es -> e <= 130 * 2 ^ 16) ->
  cost ((127 - gain_offset sr nbytes) * k_20_28) es <= INT_MAX.
Proof.
  unfold SRATE_48K_HR. intros Hd Hs Hb Hl He. pose proof (cost_bound ((127 - gain_offset sr nbytes) * k_20_28) es (130 * 2 ^ 16) He) as B.
  assert (G : gain_offset sr nbytes <= 105 + 5 * (1 + sr) + Z.min (320 / (1 + sr)) 115).
  { unfold gain_offset, is_hr, SRATE_48K_HR. replace (5 <=? sr) with false by lia. cbv zeta.
    assert (nbytes * 8 / (10 * (1 + sr)) <= 320 / (1 + sr)). { replace (320 / (1 + sr)) with (320 * 10 / ((1 + sr) * 10)) by (apply Z.div_mul_cancel_r; lia). rewrite (Z.mul_comm 10). apply Z.div_le_mono; lia. }
    destruct (SRATE_96K_HR <=? sr); lia. }
  assert (M : cost1 (130 * 2 ^ 16 - (127 - gain_offset sr nbytes) * k_20_28) <= cost1 (130 * 2 ^ 16 - (127 - (105 + 5 * (1 + sr) + Z.min (320 / (1 + sr)) 115)) * k_20_28)).
  { apply cost1_mono. unfold k_20_28. lia. }
  assert (Z0 : 0 <= zlen es) by (unfold zlen; lia).
  assert (F : zlen es * cost1 (130 * 2 ^ 16 - (127 - (105 + 5 * (1 + sr) + Z.min (320 / (1 + sr)) 115)) * k_20_28) <= INT_MAX).
  { rewrite Hl. clear - Hd Hs. assert (C : forallb (fun dt => forallb (fun sr => c_ne dt sr / 4 * cost1 (130 * 2 ^ 16 - (127 - (105 + 5 * (1 + sr) + Z.min (320 / (1 + sr)) 115)) * k_20_28) <=? INT_MAX) [0; 1; 2; 3; 4]) [0; 1; 2; 3] = true) by (vm_compute; reflexivity).
    rewrite forallb_forall in C. assert (I : In dt [0; 1; 2; 3]) by (cbn [In]; lia). specialize (C dt I). cbv beta in C. rewrite forallb_forall in C.
    assert (I' : In sr [0; 1; 2; 3; 4]) by (cbn [In]; lia). specialize (C sr I'). cbv beta in C. apply Z.leb_le in C. exact C. }
  eapply Z.le_trans; [exact B|]. eapply Z.le_trans; [|exact F]. apply Z.mul_le_mono_nonneg_l; [exact Z0|exact M].
Qed.
Print Assumptions C37_no_overflow.

(** Refuted with the high resolution mode: 10 ms at 48 kHz in 625 bytes, all the blocks at
    85 dB (a white noise at -11 dB of the full scale): the sum of the costs overflows. *)
Theorem C37_overflow_refuted : exists es,
  gain_inputs SRATE_48K_HR 625 4900 4900 es /\ zlen es = c_ne 3 SRATE_48K_HR / 4 /\ (forall e, In e es -> e = 85 * 2 ^ 16) /\
  INT_MAX < cost ((127 - gain_offset SRATE_48K_HR 625) * k_20_28) es /\
  estimate_gain 4900 (gain_offset SRATE_48K_HR 625) es (fun _ => true) false = None.
Proof.
  exists (repeat (85 * 2 ^ 16) 120). assert (A : forall e, In e (repeat (85 * 2 ^ 16) 120) -> e = 85 * 2 ^ 16) by (intros e H; exact (repeat_spec _ _ _ H)).
  split; [|split; [reflexivity|split; [exact A|split; [vm_compute; reflexivity|vm_compute; reflexivity]]]].
  unfold gain_inputs, SRATE_48K_HR. repeat split; try lia; [vm_compute; discriminate|..]; apply A in H; subst e; vm_compute; discriminate.
Qed.
Print Assumptions C37_overflow_refuted.

(** ** The energies: defined and increasing with the number, for the 32 bits of any positive
    float. *)
Theorem C37_energies u u' : 0 <= u <= u' -> u' < 2 ^ 31 ->
  exists e e', db_q16 u = Some e /\ db_q16 u' = Some e' /\ energy e /\ energy e' /\ e <= e'.
Proof.
  intros H H'. destruct (db_q16_ok u ltac:(lia)) as [E1 B1]. destruct (db_q16_ok u' ltac:(lia)) as [E2 B2].
  exists (db_value u), (db_value u'). repeat split; try assumption; try apply B1; try apply B2. apply db_mono. lia.
Qed.
Print Assumptions C37_energies.
(** The numbers 1, 100^2 and their energies, 0 dB and 20 dB. *)
Example C37_energies_example : db_q16 0x3f800000 = Some 0 /\ db_q16 0x461c4000 = Some 1310724 /\ 20 * 2 ^ 16 = 1310720.
Proof. vm_compute. repeat split; reflexivity. Qed.

(** ** The count of coefficients: the quantized spectrum ends with its last pair that has a
    significant coefficient. *)
Theorem C37_significants dt sr sig : zlen sig = c_ne dt sr / 2 -> c_ne dt sr mod 2 = 0 ->
  let nq := count_nq (c_ne dt sr) (c_ne dt sr) sig in
  nq mod 2 = 0 /\ 0 <= nq <= c_ne dt sr /\ (forall k, nq <= 2 * k < c_ne dt sr -> sig_at sig k = false) /\ (0 < nq -> sig_at sig (nq / 2 - 1) = true).
Proof.
  intros Hl He. cbv zeta. destruct (count_nq_ok (c_ne dt sr) sig (c_ne dt sr)) as [[E A]|(k & Hk & E & A & B)]; cbv zeta in E; rewrite E.
  - replace (c_ne dt sr - 2 * zlen sig) with 0 by (rewrite Hl; Z.div_mod_to_equations; lia). split; [reflexivity|]. split; [Z.div_mod_to_equations; unfold zlen in Hl; lia|].
    split; [|lia]. intros k Hk. apply A. rewrite Hl. Z.div_mod_to_equations; lia.
  - assert (X : c_ne dt sr = 2 * zlen sig) by (rewrite Hl; Z.div_mod_to_equations; lia). replace (c_ne dt sr - 2 * (zlen sig - 1 - k)) with ((k + 1) * 2) by lia.
    rewrite Z.mod_mul, Z.div_mul by lia. split; [reflexivity|]. split; [lia|]. split; [intros k' Hk'; apply B; lia|]. intros _. replace (k + 1 - 1) with k by lia. exact A.
Qed.
Print Assumptions C37_significants.
Example C37_significants_example : c_ne 0 0 = 20 /\ count_nq 20 20 [(true, false); (false, false); (false, true); (false, false); (false, false); (false, false); (false, false); (false, false); (false, false); (false, false)] = 6.
Proof. split; reflexivity. Qed.

(** ** The gains *)
Local Open Scope R_scope.

(** C37: the gain of an index, computed by the encoder and by the decoder in binary32, is
    10^(g/28) to 2^-19, for any index in use. *)
Theorem C37_gains g : (-255 <= g <= 255)%Z ->
  exists a, unquantize_gain g = Some a /\ Rabs (pvalue a - Rpower 10 (IZR g / 28)) <= / 2 ^ 19 * Rpower 10 (IZR g / 28).
Proof.
  intros H. destruct (gain_value g H) as (a & E & _ & V1 & V2). exists a. split; [exact E|]. unfold ten in V1, V2. apply Rabs_le. lra.
Qed.
Print Assumptions C37_gains.

(** C37: with the index written in the frame, the quantized coefficients are below the
    limit of the coder (15 bits, 23 with the high resolution mode), to 2^-18, provided that
    they are with the last index. The maximum [x] of the spectrum is in units of 2^-149. *)
Theorem C37_quantizer_limit dt sr nbytes budget nbits es x z q g_idx nq lsb :
  gain_inputs sr nbytes nbits budget es -> (0 <= dt <= 3)%Z -> quantized dt sr (255 - gain_offset sr nbytes) (fits_limit sr x) q ->
  spec_analyze dt sr nbytes budget nbits es (fits_limit sr x) z q = Some (g_idx, nq, lsb) ->
  IZR x / 2 ^ 149 / Rpower 10 (IZR (g_idx - gain_offset sr nbytes) / 28) < (1 + / 2 ^ 18) * ((if is_hr sr then 2 ^ 8 else 1) * 32767).
Proof.
  intros Hi Hd Hq E. pose proof Hi as (Hs & Hb & _). pose proof (gain_offset_range sr nbytes Hs Hb) as Ho.
  destruct (analyze_inv dt sr nbytes budget nbits es (fits_limit sr x) z q Hi Hd Hq) as [[_ E']|(_ & i & n & l & gm & E' & R1 & R2 & R3 & M)]; rewrite E' in E; [discriminate|].
  injection E as -> -> ->. set (g_off := gain_offset sr nbytes) in *.
  assert (F2 : fits_limit sr x (g_idx - g_off) = true) by (apply (fits_le sr x gm); [lia|lia|exact M]).
  pose proof (fits_value sr x (g_idx - g_off) ltac:(lia) F2) as V. change (Rpower 10 (IZR (g_idx - g_off) / 28)) with (ten (g_idx - g_off)). pose proof (ten_pos (g_idx - g_off)) as T.
  apply (Rmult_lt_reg_r (ten (g_idx - g_off))); [exact T|]. replace (IZR x / 2 ^ 149 / ten (g_idx - g_off) * ten (g_idx - g_off)) with (IZR x / 2 ^ 149) by (unfold Rdiv; rewrite Rmult_assoc, Rinv_l by lra; ring).
  rewrite !Rmult_assoc in V. rewrite !Rmult_assoc. exact V.
Qed.
Print Assumptions C37_quantizer_limit.
(** A spectrum up to 10^6, without other limit than the one of the quantizer. *)
Example C37_quantizer_limit_example :
  fits_limit 4 (1000000 * 2 ^ 149) (255 - gain_offset 4 100) = true /\
  spec_analyze 3 4 100 700 700 [] (fits_limit 4 (1000000 * 2 ^ 149)) true (fun _ => [1; 0]%Z) = Some (188%Z, 2%Z, false) /\
  fits_limit 4 (1000000 * 2 ^ 149) (188 - gain_offset 4 100) = true /\ fits_limit 4 (1000000 * 2 ^ 149) (187 - gain_offset 4 100) = false.
Proof. vm_compute. repeat split; reflexivity. Qed.
