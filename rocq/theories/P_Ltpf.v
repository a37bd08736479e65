(** * Properties C27 and C28: pitch index and long term postfilter *)
From Coq Require Import ZArith List Bool Lia.
From Verif Require Import Base BaseProofs ConfigModel ConfigSpec ConfigProofs SideModel LtpfTables LtpfModel LtpfSpec LtpfProofs LtpfFrame.
Import ListNotations.
Local Open Scope Z_scope.

Lemma supported_geometry dt_us hz : supported false dt_us hz ->
  let dt := resolve_dt dt_us false in let sr := resolve_srate hz false in
  0 <= dt < 4 /\ 0 <= sr < 5 /\ dt_us / 2500 = 1 + dt /\ samples dt_us hz = c_ns dt sr /\ 0 < hz /\
  exists nt nh w, geometry dt sr (c_ns dt sr) nt nh w hz.
Proof.
  intros H. cbv zeta.
  assert (E : 0 <= resolve_dt dt_us false < 4 /\ 0 <= resolve_srate hz false < 5 /\
    dt_us / 2500 = 1 + resolve_dt dt_us false /\
    samples dt_us hz = c_ns (resolve_dt dt_us false) (resolve_srate hz false) /\ 0 < hz /\
    rate_hz (resolve_srate hz false) = hz).
  { supported_case H; vm_compute; intuition congruence. }
  destruct E as (E1 & E2 & E3 & E4 & E5 & E6). destruct (geometry_ok _ _ E1 E2) as (ns & nt & nh & w & hz' & G).
  pose proof (g_hz _ _ _ _ _ _ _ G) as E7. rewrite E6 in E7. subst hz'.
  pose proof (g_ns _ _ _ _ _ _ _ G) as E8. subst ns. repeat split; try tauto; try lia. exists nt, nh, w. exact G.
Qed.

(** ** C27 *)

(** Encoder to decoder: a lag of [e] samples and [f] quarters as the search of the encoder
    finds it (from 32 to 228 samples at 12.8 kHz; by halves from 127 and integers from 157)
    gets an index of 9 bits, and the decoder recovers the lag from the index. *)
Theorem C27_round_trip e f :
  32 <= e <= 228 -> -3 <= f <= 3 -> (f < 0 -> 32 < e) -> (127 <= e -> f mod 2 = 0) -> (157 <= e -> f = 0) ->
  let '(pitch, i) := pitch_out e f in
  pitch = 4 * e + f /\ 0 <= i < 512 /\ index_pitch i = pitch.
Proof.
  intros He Hf H1 H2 H3. unfold pitch_out, shr. change (2 ^ 1) with 2.
  assert (Ef : f = -3 \/ f = -2 \/ f = -1 \/ f = 0 \/ f = 1 \/ f = 2 \/ f = 3) by lia.
  assert (E : forall i, 0 <= i < 512 -> index_pitch i = lag_of_index i) by apply index_pitch_eq.
  unfold lag_of_index in E.
  assert (H2' : f mod 2 = 0 \/ e < 127) by (destruct (Z.lt_ge_cases e 127); auto).
  assert (H3' : f = 0 \/ e < 157) by (destruct (Z.lt_ge_cases e 157); auto). clear H2 H3.
  destruct Ef as [->|[->|[->|[->|[->|[->| ->]]]]]];
    (destruct H2' as [H2'|H2']; [try discriminate H2'|]); (destruct H3' as [H3'|H3']; [try discriminate H3'|]);
    (match goal with |- context [b2z (?a <? 0)] => destruct (Z.ltb_spec a 0); try lia; [] end); cbn [b2z];
    repeat match goal with |- context [if ?a <? ?b then _ else _] => destruct (Z.ltb_spec a b) end;
    (split; [lia|]; split; [Z.div_mod_to_equations; lia|]; rewrite E by (Z.div_mod_to_equations; lia);
     repeat match goal with |- context [if ?a <? ?b then _ else _] => destruct (Z.ltb_spec a b) end;
     Z.div_mod_to_equations; lia).
Qed.

(** The 512 indexes are all used, and are different lags. *)
Theorem C27_all_indexes i j : 0 <= i < 512 -> 0 <= j < 512 ->
  (exists e f, 32 <= e <= 228 /\ -3 <= f <= 3 /\ (f < 0 -> 32 < e) /\ (127 <= e -> f mod 2 = 0) /\ (157 <= e -> f = 0) /\
               snd (pitch_out e f) = i) /\
  (index_pitch i = index_pitch j -> i = j).
Proof.
  intros Hi Hj. split.
  - destruct (Z.lt_ge_cases i 380); [|destruct (Z.lt_ge_cases i 440)].
    + exists (32 + i / 4), (i mod 4). unfold pitch_out. destruct (Z.ltb_spec (i mod 4) 0); [Z.div_mod_to_equations; lia|].
      cbn [b2z snd]. destruct (Z.ltb_spec (32 + i / 4 - 0) 127); Z.div_mod_to_equations; lia.
    + exists (127 + (i - 380) / 2), (2 * ((i - 380) mod 2)). unfold pitch_out, shr. change (2 ^ 1) with 2.
      destruct (Z.ltb_spec (2 * ((i - 380) mod 2)) 0); [Z.div_mod_to_equations; lia|]. cbn [b2z snd].
      destruct (Z.ltb_spec (127 + (i - 380) / 2 - 0) 127); [Z.div_mod_to_equations; lia|].
      destruct (Z.ltb_spec (127 + (i - 380) / 2 - 0) 157); Z.div_mod_to_equations; lia.
    + exists (i - 283), 0. unfold pitch_out. cbn [Z.ltb Z.compare b2z snd].
      destruct (Z.ltb_spec (i - 283 - 0) 127); [lia|]. destruct (Z.ltb_spec (i - 283 - 0) 157); [lia|].
      repeat split; try lia; reflexivity.
  - rewrite !index_pitch_eq by lia. unfold lag_of_index.
    repeat match goal with |- context [if ?a <? ?b then _ else _] => destruct (Z.ltb_spec a b) end; lia.
Qed.

(** Every index is decoded to its lag, converted to the output rate to the nearest quarter
    of sample, without overflow; the samples at this lag, with the half width of filter
    more that are looked back, are in the history of the decoder, and they are all older
    than the current sample. *)
Theorem C27_lag_in_history dt_us hz i :
  supported false dt_us hz -> 0 <= i < 512 ->
  let dt := resolve_dt dt_us false in let sr := resolve_srate hz false in
  scaled_pitch sr i = Some (lag_at hz i) /\
  2 * Z.abs (12800 * lag_at hz i - lag_of_index i * hz) <= 12800 /\
  width hz <= lag_at hz i / 4 + width hz / 2 <= c_nh dt sr.
Proof.
  intros Hs Hi. cbv zeta. destruct (supported_geometry _ _ Hs) as (_ & _ & _ & _ & Hhz & nt & nh & w & G).
  destruct (scaled_pitch_ok _ _ _ _ _ _ _ i G Hi) as (E1 & E2 & E3).
  rewrite (g_width _ _ _ _ _ _ _ G), (g_nh _ _ _ _ _ _ _ G). split; [exact E1|]. split; [|exact E3].
  unfold lag_at. generalize (lag_of_index i * hz). intros z. Z.div_mod_to_equations. lia.
Qed.

Example C27_example : pitch_out 127 (-2) = (506, 378) /\ index_pitch 378 = 506 /\ pitch_out 156 2 = (626, 439) /\
  pitch_out 228 0 = (912, 511) /\ scaled_pitch 4 511 = Some 3420 /\ width 48000 = 12 /\ 3420 / 4 + 6 = 861 /\ c_nh 3 4 = 960.
Proof. repeat split. Qed.

(** ** C28 *)

(** Tables of the source, through any conversion of a decimal constant (times 10^18). *)
Definition table_of {F} (lit : Z -> F) (l : list (list (list Z))) : list (list (list F)) := map (map (map lit)) l.
Definition entry_of {F} (lit : Z -> F) (l : list (list (list Z))) (s r k : Z) : F :=
  lit (znth (znth (znth l s []) r []) k 0).

Definition shape_ok (l : list (list (list Z))) : bool :=
  (zlen l =? 5) && forallb (fun s => (zlen (znth l s []) =? 4) &&
    forallb (fun r => zlen (znth (znth l s []) r []) =? width (rate_hz s)) [0; 1; 2; 3]) [0; 1; 2; 3; 4].
Lemma rd_map {A B} (f : A -> B) (l : list A) i : rd (map f l) i = option_map f (rd l i).
Proof. unfold rd. destruct (i <? 0); [reflexivity|]. apply nth_error_map. Qed.
Lemma table_of_ok {F} (lit : Z -> F) l : shape_ok l = true -> table (table_of lit l) (entry_of lit l).
Proof.
  unfold shape_ok. rewrite andb_true_iff, forallb_forall. intros (E1 & E2). apply Z.eqb_eq in E1.
  intros s r k Hs Hr Hk. specialize (E2 s). rewrite andb_true_iff, forallb_forall in E2.
  destruct E2 as (E2 & E3). { cbn [In]. lia. } specialize (E3 r). apply Z.eqb_eq in E2.
  assert (E4 : zlen (znth (znth l s []) r []) = width (rate_hz s)) by (apply Z.eqb_eq, E3; cbn [In]; lia).
  unfold table_of. rewrite rd_map. rewrite (rd_znth l s []) by lia. cbn [option_map bind]. rewrite rd_map.
  rewrite (rd_znth _ r []) by lia. cbn [option_map bind]. rewrite rd_map. rewrite (rd_znth _ k 0) by lia. reflexivity.
Qed.

Definition E18 : Z := 1000000000000000000.
Section c28.
  (** Any type of floats with any operations; [lit] converts the constants of the source. *)
  Context {F : Type} (zero : F) (add sub mul div : F -> F -> F) (ofz lit : Z -> F).
  Definition dec_postfilter := postfilter zero add sub mul div ofz (lit (4 * (E18 / 10))) (lit (5 * (E18 / 100)))
    (lit (85 * (E18 / 100))) (table_of lit ltpf_cden) (table_of lit ltpf_cnum).
  Definition dec_synthesize := ltpf_synthesize zero add sub mul div ofz (lit (4 * (E18 / 10))) (lit (5 * (E18 / 100)))
    (lit (85 * (E18 / 100))) (table_of lit ltpf_cden) (table_of lit ltpf_cnum).
  Definition spec_output := output zero add sub mul div ofz (lit (4 * (E18 / 10))) (lit (5 * (E18 / 100)))
    (lit (85 * (E18 / 100))) (entry_of lit ltpf_cden) (entry_of lit ltpf_cnum).

  (** For every configuration of a decoder (without high-resolution) and every sequence of
      frames (received or lost, any pitch index, any size, any samples, any content of the
      other areas and of the uninitialised local arrays), all accesses are in bounds and the
      samples produced are those of the specification, on the unbounded stream. *)
  Theorem C28_postfilter c0 u0 dt_us sr_hz sr_pcm_hz d n (fr : list (@frame_in F)) :
    zlen c0 = 48 -> zlen u0 = 24 ->
    hr_setup_decoder false dt_us sr_hz sr_pcm_hz = Some (Some (d, n)) ->
    let hz := if sr_pcm_hz <=? 0 then sr_hz else sr_pcm_hz in
    let ns := samples dt_us hz in
    Forall (frame_in_ok ns) fr ->
    let x := input zero ns (map r_xs fr) in
    let y := fst (spec_output (dt_us / 2500) (resolve_srate hz false) hz x (rev (spec_frames fr))) in
    dec_postfilter c0 u0 d (ltpf_init zero) (mem_init zero n) fr =
      Some (map (fun k => map (fun i => y (k * ns + i)) (zrange ns)) (zrange (zlen fr))).
  Proof.
    intros Hc0 Hu0 Hset hz ns Hfr x y.
    unfold hr_setup_decoder in Hset. cbv zeta in Hset. fold hz in Hset.
    destruct (_ || _ || _) eqn:E in Hset; [discriminate|]. apply setup_guard in E. destruct E as (_ & Hs & _).
    destruct (supported_geometry _ _ Hs) as (Hdt & Hsr & Eq & Ens & _ & nt & nh & w & G). cbv zeta in *.
    set (dt := resolve_dt dt_us false) in *. set (sr := resolve_srate hz false) in *.
    assert (Hn : dec_buffer_count dt_us hz = Some n /\ c_ns dt sr + c_nh dt sr <= n /\ 0 < c_ns dt sr).
    { destruct (dec_buffer_count dt_us hz) as [n'|] eqn:En; [|discriminate]. injection Hset as _ <-.
      split; [reflexivity|]. clear - Hs En. unfold dt, sr. clearbody hz.
      supported_case Hs; cbv in En; injection En as <-; vm_compute; intuition congruence. }
    destruct Hn as (En & Hn & Hns0). rewrite En in Hset. injection Hset as <-. 
    pose proof (g_nh _ _ _ _ _ _ _ G) as Enh. rewrite Enh in *.
    pose proof (g_div _ _ _ _ _ _ _ G) as Gdiv. pose proof (g_wt _ _ _ _ _ _ _ G) as Hwt. pose proof (g_w0 _ _ _ _ _ _ _ G) as Hw0.
    pose proof (g_nh0 _ _ _ _ _ _ _ G) as Hnh0.
    unfold ns in *. rewrite Ens in *. clear ns. set (ns := c_ns dt sr) in *.
    unfold dec_postfilter.
    rewrite (postfilter_ok zero add sub mul div ofz _ _ _ _ _ (entry_of lit ltpf_cden) (entry_of lit ltpf_cnum)
      (table_of_ok lit ltpf_cden eq_refl) (table_of_ok lit ltpf_cnum eq_refl)
      dt sr ns nt nh w hz nh c0 u0 x G Hdt Hsr Hc0 Hu0 fr []); try reflexivity.
    - f_equal. apply map_ext. intros k. apply map_ext. intros i. cbn [length Z.of_nat Z.mul Z.add]. unfold y, spec_output.
      rewrite app_nil_r, Eq. unfold spec_frames. rewrite map_rev. reflexivity.
    - exact Gdiv.
    - cbn [d_xs length Z.of_nat Z.mul Z.add]. symmetry. apply Z.mod_small. lia.
    - exact Hfr.
    - intros k i f Hk Hi. cbn [length Z.of_nat Z.mul Z.add]. unfold x, input. rewrite Ens. fold ns.
      assert (Hf : frame_in_ok ns f) by (eapply Forall_forall in Hfr; [exact Hfr|eapply nth_error_In; exact Hk]).
      destruct (Z.ltb_spec (Z.of_nat k * ns + i) 0); [lia|].
      assert (Em : (Z.of_nat k * ns + i) mod ns = i) by (rewrite Z.add_comm, Z_mod_plus_full; apply Z.mod_small; lia).
      assert (Ed : (Z.of_nat k * ns + i) / ns = Z.of_nat k) by (rewrite Z.add_comm, Z_div_plus_full, Z.div_small; lia).
      rewrite Em, Ed. rewrite Nat2Z.id.
      rewrite (nth_error_nth (map r_xs fr) k [] (x := r_xs f)) by (apply map_nth_error; exact Hk).
      destruct Hf as (Hf & _). rewrite (rd_znth _ _ zero) by lia. unfold znth. destruct (Z.ltb_spec i 0); [lia|reflexivity].
    - cbn [spec_frames map output length Z.of_nat Z.mul]. 
      assert (Lm : zlen (mem_init zero n) = n) by (unfold mem_init; rewrite zlen_repeat; lia).
      assert (Hrep : forall m j, 0 <= j < Z.of_nat m -> rd (repeat zero m) j = Some zero).
      { intros m j Hj. rewrite (rd_znth _ _ zero) by (rewrite zlen_repeat; lia). unfold znth.
        destruct (Z.ltb_spec j 0); [lia|]. rewrite nth_repeat. reflexivity. }
      split; cbn [ltpf_init t_x t_c t_active f_active]; try reflexivity.
      + lia.
      + intros t Ht. unfold mem_init. apply Hrep. pose proof (Z.mod_pos_bound (t + nh) (ns + nh)). lia.
      + intros i Hi. rewrite Hrep by (change (Z.of_nat 12) with 12; lia). unfold x, input.
        destruct (Z.ltb_spec (0 - (w - 1) + i) 0); [reflexivity|lia].
      + discriminate.
  Qed.

  (** One call, from any state and memory: the only hypothesis on the state is that the
      pitch of an active filter comes from an index. Only the window is written. *)
  Theorem C28_footprint c0 u0 dt_us hz st data nbytes mem k :
    zlen c0 = 48 -> zlen u0 = 24 -> supported false dt_us hz ->
    let dt := resolve_dt dt_us false in let sr := resolve_srate hz false in
    let ns := samples dt_us hz in let nh := c_nh dt sr in let px := k * ns in
    let state_ok (st : @ltpf_state F) := zlen (t_x st) = 12 /\ zlen (t_c st) = 24 /\
      (t_active st = true -> exists i, 0 <= i < 512 /\ t_pitch st = lag_at hz i) in
    state_ok st -> 0 <= px <= nh -> ns + nh <= zlen mem -> - 10000000 <= nbytes <= 10000000 ->
    (forall d, data = Some d -> 0 <= l_pitch d < 512) ->
    exists mem' st', dec_synthesize c0 u0 dt sr nbytes st data mem 0 px = Some (mem', st') /\
      zlen mem' = zlen mem /\ (forall p, p < px \/ px + ns <= p -> rd mem' p = rd mem p) /\ state_ok st'.
  Proof.
    intros Hc0 Hu0 Hs dt sr ns nh px state_ok (S1 & S2 & S3) Hpx Hmem Hnb Hd.
    destruct (supported_geometry _ _ Hs) as (Hdt & Hsr & Eq & Ens & _ & nt & nh' & w & G). cbv zeta in *. fold dt sr in Hdt, Hsr, Eq, Ens, G.
    rewrite <- Ens in G. fold ns in G. pose proof (g_nh _ _ _ _ _ _ _ G) as En. fold nh in En. subst nh'.
    pose proof (g_wt _ _ _ _ _ _ _ G) as Hwt. pose proof (g_w0 _ _ _ _ _ _ _ G) as Hw0. pose proof (g_div _ _ _ _ _ _ _ G) as Hdiv.
    clearbody nh ns dt sr.
    set (R := ns + nh) in *. set (y := fun t => znth mem ((t + px) mod R) zero).
    set (x := fun t => if t <? 0 then znth (t_x st) (t + (w - 1)) zero else y t).
    destruct (frame_ok zero add sub mul div ofz (lit (4 * (E18 / 10))) (lit (5 * (E18 / 100))) (lit (85 * (E18 / 100)))
      (table_of lit ltpf_cden) (table_of lit ltpf_cnum) (entry_of lit ltpf_cden) (entry_of lit ltpf_cnum)
      (table_of_ok lit ltpf_cden eq_refl) (table_of_ok lit ltpf_cnum eq_refl)
      c0 u0 dt sr nbytes data st mem ns nt nh w hz px 0 (mkParams (t_active st) (t_pitch st) (fun k => znth (t_c st) k zero)) x y G)
      as (mem' & st' & E & I & L & _ & O); auto.
    - apply Z.mod_mul. lia.
    - split; cbn [f_active f_lag f_coef]; auto.
      + intros t Ht. apply rd_znth. pose proof (Z.mod_pos_bound (t + px) (ns + nh)). lia.
      + intros i Hi. unfold x. destruct (Z.ltb_spec (0 - (w - 1) + i) 0); [|lia].
        rewrite (rd_znth _ _ zero) by lia. do 2 f_equal. lia.
      + intros Ha. destruct (S3 Ha) as (i & Hi & ->). destruct (scaled_pitch_ok _ _ _ _ _ _ _ i G Hi) as (_ & E1 & E2).
        repeat split; try lia. intros j Hj. apply rd_znth. lia.
    - intros t Ht. unfold x. destruct (Z.ltb_spec t 0); [lia|]. apply rd_znth. pose proof (Z.mod_pos_bound (t + px) (ns + nh)). lia.
    - rewrite Z.add_0_l in E, O.
      assert (Ep : px mod (ns + nh) = px).
      { apply Z.mod_small. lia. }
      rewrite Ep in E, O. exists mem', st'. split; [exact E|]. split; [exact L|]. split; [exact O|].
      destruct I as [_ I1 I2 _ _ I3 I4]. split; [exact I1|]. split; [exact I2|]. intros Ha. rewrite I3 in Ha.
      destruct (I4 Ha) as (-> & _). unfold frame_params, spec_data in *. destruct data as [d'|]; [|discriminate].
      destruct (negb (l_active d' =? 0)); [|discriminate]. cbn [f_lag]. exists (l_pitch d'). split; [apply Hd|]; reflexivity.
  Qed.

  (** The size of a lost frame is not checked by the decoder and is not used, but a large
      value overflows in the computation of the gain. *)
  Theorem C28_lost_frame_size_refuted c0 u0 st mem : exists nbytes, INT_MIN <= nbytes <= INT_MAX /\
    dec_synthesize c0 u0 3 4 nbytes st None mem 0 960 = None.
  Proof. exists 100000000. split; [split; discriminate|]. reflexivity. Qed.
End c28.

(** Three frames of 2.5 ms at 8 kHz, on integers: the filter starts, changes its lag, then
    the third frame is lost. The window goes around the ring (nine windows). *)
Example C28_example :
  let fr := [mkFrameIn 20 (Some (mkLtpf 1 0)) (repeat 1000 20) [7];
             mkFrameIn 20 (Some (mkLtpf 1 5)) (repeat 500 20) [8; 9];
             mkFrameIn 20 None (repeat 250 20) []] in
  hr_setup_decoder false 2500 8000 0 = Some (Some (mkDec 0 0 0 0 160 180 200, 220)) /\
  Forall (frame_in_ok 20) fr /\
  match dec_postfilter 0 Z.add Z.sub (fun a b => a * b / 1000) (fun a b => a * 1000 / b) (fun n => n * 1000) (fun v => v / (E18 / 1000))
          (repeat 0 48) (repeat 0 24) (mkDec 0 0 0 0 160 180 200) (ltpf_init 0) (mem_init 0 220) fr with
  | Some [a; b; c] => a <> repeat 1000 20 /\ b <> repeat 500 20 /\ c <> repeat 250 20 /\ length c = 20%nat
  | _ => False
  end.
Proof.
  cbv zeta. split; [reflexivity|]. split.
  - repeat apply Forall_cons; try apply Forall_nil; (split; [reflexivity|]; split; [cbn; lia|]);
      cbn [r_data]; intros d E; try discriminate; injection E as <-; cbn; lia.
  - vm_compute. repeat split; discriminate.
Qed.

Print Assumptions C27_round_trip.
Print Assumptions C27_all_indexes.
Print Assumptions C27_lag_in_history.
Print Assumptions C28_postfilter.
Print Assumptions C28_footprint.
Print Assumptions C28_lost_frame_size_refuted.
