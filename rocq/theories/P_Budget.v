(** * Properties of the bit budget of the spectrum (C26) *)
From Coq Require Import ZArith List Bool Lia ZifyBool.
From Verif Require Import Base BaseProofs BitsModel ConfigModel SideModel SideSpec SpecModel SpecSpec.
From Verif Require Import FloatModel ResidualModel ResidualSpec FrameModel FrameSpec FrameProofs P_Frame.
From Verif Require Import BudgetModel BudgetSpec BudgetFrame.
Import ListNotations.
Local Open Scope Z_scope.

(** The spectrum [xs] is quantized, and truncated to its [n] first coefficients by the
    count of bits, with the budget that the other data leave. The bits left once the
    frame is written up to the spectrum are the spare bits at least, less 46/2048 of a
    bit for each symbol of the arithmetic coder.
    So the frame is written without overflow, and the decoder accepts it, when the
    truncation error of the coder does not exceed the spare bits.
    Missing: spectra of more symbols ([C26_budget_refuted]: they can overflow), and the
    hypotheses of C24. *)
Theorem C26_budget_partial hw buf dt sr f xs n nbits :
  let nbytes := zlen buf in
  let budget := spec_budget dt sr nbytes (f_pitch f) (f_tns f) in
  let symbols := tns_symbols (f_tns f) + spectrum_symbols (f_q sr f) in
  bytes buf -> 1 <= nbytes <= 625 -> frame_ok dt sr nbytes f -> spectrum_ok dt sr xs -> 0 < budget ->
  compute_nbits dt sr nbytes xs budget = (n, nbits, q_lsb (f_side f)) -> f_q sr f = firstn (Z.to_nat n) xs ->
  46 * symbols < 2048 * (spare_bits (is_hr sr) nbytes + 1) ->
  spare_bits (is_hr sr) nbytes - (46 * symbols) / 2048 <= w_bits_left (put_main (w_setup buf) dt sr nbytes f) /\
  w_check (put_frame (w_setup buf) dt sr nbytes f) = 0 /\
  exists d, decode true hw (encode buf dt sr f) dt sr = Some d /\ same_side f d.
Proof.
  cbv zeta. intros Hb Hn Hf Hx Hbud Hc Eq Hs.
  pose proof (main_room dt sr (zlen buf) f xs n nbits Hn Hf Hx Hbud Hc Eq) as R.
  assert (0 <= spare_bits (is_hr sr) (zlen buf)
    - (46 * (tns_symbols (f_tns f) + spectrum_symbols (f_q sr f))) / 2048) as P.
  { clear - Hs. Z.div_mod_to_equations. lia. }
  destruct (main_fits buf dt sr f Hb Hf (Z.le_trans _ _ _ P R)) as (E & C). rewrite E.
  split; [exact R|]. split; [exact C|].
  destruct (C24_frame_round_trip_partial hw buf dt sr f Hb Hf C) as (_ & _ & d & Hd & Hd2 & _). exists d. auto.
Qed.
Print Assumptions C26_budget_partial.

(** The truncation: an even count of coefficients, whose cost is in the budget. *)
Theorem C26_truncation dt sr nbytes xs b n nbits lsb :
  0 <= dt <= 3 -> 0 < b < 2 ^ 20 -> spectrum_ok dt sr xs ->
  compute_nbits dt sr nbytes xs b = (n, nbits, lsb) ->
  0 <= n <= zlen xs /\ Z.even n = true /\ 0 <= nbits <= b.
Proof.
  intros Hd Hb Hx H.
  destruct (compute_fits dt sr nbytes xs b n nbits lsb Hb (small_of _ _ _ Hx) (proj1 (proj2 Hx)) H) as (H1 & H2 & H3 & _).
  auto.
Qed.
Print Assumptions C26_truncation.

(** Nothing is dropped without need: the coefficients of every prefix whose count,
    without limit, is in the budget are kept, down to the last that is not zero. With a
    spectrum that fits, the least significant bits are not set apart. *)
Theorem C26_no_needless_truncation dt sr nbytes xs b n nbits lsb :
  0 <= dt <= 3 -> 0 < b < 2 ^ 20 -> spectrum_ok dt sr xs ->
  compute_nbits dt sr nbytes xs b = (n, nbits, lsb) ->
  (forall k n0 t lsb0, 0 <= k -> Z.even k = true ->
     compute_nbits dt sr nbytes (firstn (Z.to_nat k) xs) 0 = (n0, t, lsb0) -> t <= b ->
     keeps_all n (firstn (Z.to_nat k) xs)) /\
  (forall n0 t lsb0, compute_nbits dt sr nbytes xs 0 = (n0, t, lsb0) -> t <= b ->
     n = n0 /\ keeps_all n xs /\ lsb = false).
Proof.
  intros Hd Hb Hx H. destruct (small24_of dt sr xs Hd Hx) as (Hs & Hl). pose proof (proj1 (proj2 Hx)) as He. split.
  - intros k n0 t lsb0 Hk Hk2 H0 Ht. eapply prefix_kept; eassumption.
  - intros n0 t lsb0 H0 Ht. eapply all_kept; eassumption.
Qed.
Print Assumptions C26_no_needless_truncation.

(** The count without limit stays far from the limits of [int]. *)
Theorem C26_counts_bounded dt sr nbytes xs b n nbits lsb :
  0 <= dt <= 3 -> 0 <= b < 2 ^ 20 -> spectrum_ok dt sr xs ->
  compute_nbits dt sr nbytes xs b = (n, nbits, lsb) -> 0 <= 2048 * nbits < 2 ^ 30.
Proof.
  intros Hd Hb Hx H. destruct (small24_of dt sr xs Hd Hx) as (Hs & Hl). pose proof (proj1 (proj2 Hx)) as He.
  destruct (resolve_modes sr nbytes) as [lm high] eqn:Em.
  destruct (pairs_full dt sr nbytes xs b n nbits lsb lm high Hb Hs Hl He Em H)
    as (m & e & l & _ & _ & _ & _ & Pe & Pl & Pl2 & _ & _ & -> & _).
  destruct (b =? 0); clear - Pe Pl Pl2; Z.div_mod_to_equations; lia.
Qed.
Print Assumptions C26_counts_bounded.

(** 60 bytes at 48 kHz with 13 symbols; the last coefficients are dropped with a budget
    of 20 bits; the least significant bits are apart with 44 bits in 150 bytes. *)
Definition ex_q : list Z := [3; -5; 0; -1; 0; 71].
Example C26_example :
  f_q 4 (ex_frame false) = ex_q /\
  spec_budget 3 4 60 true (f_tns (ex_frame false)) = 385 /\
  compute_nbits 3 4 60 ex_q 385 = (6, 42, false) /\
  tns_symbols (f_tns (ex_frame false)) + spectrum_symbols ex_q = 13 /\
  compute_nbits 3 4 60 ex_q 20 = (4, 16, false) /\
  compute_nbits 3 4 150 ex_q 44 = (6, 42, true) /\
  compute_nbits 3 4 150 ex_q 0 = (6, 46, false).
Proof. vm_compute. repeat split; reflexivity. Qed.

(** The coefficients of a frame of 116 bytes, that overflows by one bit. *)
Definition over_q : list Z :=
  [1; 3; 8; 0; 2; 2; 3; 3; 8; 0; 8; 0; 0; 0; 4; 0; 2; 0; 3; 3; 4; 0; 8; 0; 3; 3; 8; 0; 2; 1; 3; 3; 4;
   0; 8; 0; 2; 0; 8; 0; 8; 0; 8; 0; 8; 0; 0; 3; 4; 0; 8; 0; 1; 1; 4; 0; 4; 0; 3; 3; 8; 0; 2; 1; 0; 2;
   4; 0; 4; 0; 8; 0; 8; 0; 3; 2; 4; 0; 0; 0; 3; 3; 4; 0; 8; 0; 8; 0; 8; 0; 0; 3; 4; 0; 8; 0; 1; 1; 4;
   0; 4; 0; 3; 3; 8; 0; 2; 1; 0; 2; 4; 0; 4; 0; 8; 0; 8; 0; 3; 2; 4; 0; 0; 0; 3; 3; 4; 0; 8; 0; 8; 0;
   8; 0; 0; 3; 4; 0; 8; 0; 1; 1; 4; 0; 4; 0; 3; 3; 8; 0; 2; 1; 0; 2; 4; 0; 4; 0; 8; 0; 8; 0; 3; 2; 4;
   0; 0; 0; 3; 3; 4; 0; 8; 0; 8; 0; 8; 0; 0; 3; 4; 0; 8; 0; 1; 1; 4; 0; 4; 0; 3; 3; 8; 0; 2; 1; 3; 3;
   8; 0; 8; 0; 8; 0; 8; 0; 8; 0].
Definition over_frame : frame :=
  mkFrame 4 (mkSide 208 false 120) (mkTns false [[]; []]) false (mkSns 3 17 0 1 12345 1 5 1)
    (mkLtpf 0 0) 5 (map (fun x => x * one) over_q).

Lemma over_frame_ok : frame_ok 3 4 116 over_frame.
Proof.
  unfold frame_ok, over_frame. cbn [f_bw f_side f_tns f_sns f_pitch f_ltpf f_nf f_x q_nq].
  split; [unfold bw_ok; change (is_hr 4) with false; cbv iota; lia|].
  split; [unfold side_ok; cbn [q_nq q_gidx]; change (c_ne 3 4) with 400; repeat split; lia|].
  split; [split; [reflexivity|]; split; [reflexivity|repeat constructor; vm_compute; discriminate]|].
  split; [unfold sns_ok; cbn; lia|]. split; [discriminate|]. split; [lia|].
  split; [reflexivity|]. change (is_hr 4) with false.
  split; [|discriminate].
  apply Forall_map. assert (G : Forall (fun x => 0 <= x <= 8) over_q).
  { apply Forall_forall. assert (C : forallb (fun x => (0 <=? x) && (x <=? 8)) over_q = true) by reflexivity.
    rewrite forallb_forall in C. intros x Hx. specialize (C x Hx). lia. }
 
  eapply Forall_impl; [|exact G]. intros x Hx. cbv beta in Hx. assert (E : In x [0; 1; 2; 3; 4; 5; 6; 7; 8]) by (cbn; lia).
  cbn [In] in E. repeat destruct E as [<-|E]; try contradiction; split; vm_compute; reflexivity.
Qed.

(** The truncation of the arithmetic coder accumulates over the symbols: a spectrum
    counted in the budget can overflow the frame, that the decoder rejects. *)
Theorem C26_budget_refuted : exists f xs n nbits,
  frame_ok 3 4 116 f /\ spectrum_ok 3 4 xs /\
  compute_nbits 3 4 116 xs (spec_budget 3 4 116 (f_pitch f) (f_tns f)) = (n, nbits, q_lsb (f_side f)) /\
  0 < spec_budget 3 4 116 (f_pitch f) (f_tns f) /\ f_q 4 f = firstn (Z.to_nat n) xs /\
  w_check (put_frame (w_setup (repeat 0 116)) 3 4 116 f) = -1 /\
  decode true (fun v => v) (encode (repeat 0 116) 3 4 f) 3 4 = None.
Proof.
  exists over_frame, over_q, 208, (spec_budget 3 4 116 false (mkTns false [[]; []])).
  split; [exact over_frame_ok|].
  split; [split; [vm_compute; discriminate|]; split; [reflexivity|];
          repeat (apply Forall_cons; [reflexivity|]); apply Forall_nil|].
  vm_compute. repeat split; reflexivity.
Qed.
Print Assumptions C26_budget_refuted.

(** A budget of zero bit is taken as no limit at all. *)
Definition zero_tns : tns_data := mkTns true [[-7; 8; -8; 8]; [-8; 8; -8; 8; 8]].
Theorem C26_zero_budget_refuted : exists tns xs n nbits lsb,
  tns_ok 3 4 20 tns /\ spectrum_ok 3 4 xs /\ spec_budget 3 4 20 false tns = 0 /\
  compute_nbits 3 4 20 xs 0 = (n, nbits, lsb) /\ n = 400 /\ 10 * (8 * 20) < nbits.
Proof.
  exists zero_tns, (repeat 7 400), 400, 2355, false.
  split; [split; [reflexivity|]; split; [reflexivity|]; repeat constructor; try (vm_compute; discriminate); lia|].
  split; [split; [vm_compute; discriminate|]; split; [reflexivity|]; apply Forall_forall; intros x Hx;
          apply repeat_spec in Hx; subst x; vm_compute; reflexivity|].
  vm_compute. repeat split; reflexivity.
Qed.
Print Assumptions C26_zero_budget_refuted.
