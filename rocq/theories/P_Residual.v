(** * Property C23: residual bits
    Coefficients are single precision numbers, given as integers in units of 2^-149
    ([FloatModel]); [rnd] is the rounding to nearest even of each operation. [pre] and
    [post] are any operations before and after, in the same frame; [n] is the number
    of bits for the residual. *)
From Coq Require Import ZArith List Bool Lia.
From Verif Require Import Base BaseProofs BitsModel BitsWriteSafe BitsAbstract BitsReadSim.
From Verif Require Import BitsReadSafe BitsRoundTrip ConfigModel SideProofs FrameBase SpecFrame.
From Verif Require Import FloatModel FloatProofs ResidualModel ResidualSpec ResidualProofs ResidualInst ResidualModes.
Import ListNotations.
Local Open Scope Z_scope.

(** What is expected of the two sides: the writer appends [bits]; the reader, given
    the quantized values, consumes the same bits, and each coefficient receives [m] of
    them, after which its decoded value [y] is related to the original [x] by [R]. *)
Definition residual_ok (fl : Z -> Z) (R : Z -> Z -> Z -> Prop) (hr : bool) (iters : Z) (hw : Z -> Z)
  (buf : list Z) (pre post : list wop) (n : Z) (xs : list Z) : Prop :=
  let w0 := fold_left wstep pre (w_setup buf) in
  let w1 := put_residual fl w0 n hr xs in
  let w := fold_left wstep post w1 in
  let qs := map (fun x => quant fl hr x) xs in
  w_check w = 0 ->
  exists bits ys ms r',
    w1 = fold_left (fun w b => put_bits w b 1) bits w0 /\ Forall (fun b => b = 0 \/ b = 1) bits /\
    get_residual fl (snd (rsteps (r_setup hw (w_buf (flush_bits w))) pre)) n hr (map (fun q => q * one) qs) =
      (ys, r') /\
    r_oob r' = false /\ r_ub r' = false /\ r_stuck r' = false /\
    (22 <= wops_bits pre -> r_bits_left r' = w_bits_left w1) /\
    length ys = length xs /\ length ms = length xs /\
    Forall2 (quantized hr) xs qs /\
    Forall2 (fun x p => R x (fst p) (snd p)) xs (combine ys ms) /\
    in_turn hr iters n xs ms (zlen bits).

Lemma fold_bit_ops bits : forall w,
  fold_left wstep (map bit_op bits) w = fold_left (fun w b => put_bits w b 1) bits w.
Proof. induction bits as [|b bits IH]; intros w; [reflexivity|]. cbn [map fold_left]. apply IH. Qed.

Lemma residual_frame fl R hr iters hw buf pre post n xs :
  (exists bits ys ms,
    Forall is_bit bits /\
    (forall w, put_residual fl w n hr xs = fold_left wstep (map bit_op bits) w) /\
    Reads (fun r => get_residual fl r n hr (map (fun x => quant fl hr x * one) xs)) (map bit_op bits) ys /\
    length ys = length xs /\ length ms = length xs /\
    Forall2 (fun x p => R x (fst p) (snd p)) xs (combine ys ms) /\
    in_turn hr iters n xs ms (zlen bits)) ->
  Forall (fun x => quantized hr x (quant fl hr x)) xs ->
  bytes buf -> Forall op_ok pre -> Forall op_ok post ->
  residual_ok fl R hr iters hw buf pre post n xs.
Proof.
  intros (bits & ys & ms & Hb & Ew & Hr & L1 & L2 & HR & Ht) Hq Hbuf H1 H2. unfold residual_ok. cbv zeta.
  rewrite Ew. intros Hc.
  assert (Hops : Forall op_ok (map bit_op bits)).
  { clear - Hb. induction Hb as [|b bits Hb _ IH]; cbn [map]; constructor; [apply bit_op_ok; exact Hb|exact IH]. }
  destruct (frame_reads_left hw buf pre _ post _ _ Hbuf H1 Hops H2 Hr Hc)
    as (r' & E & (F1 & F2 & F3) & _ & _ & HL).
  exists bits, ys, ms, r'. rewrite map_map. cbv beta.
  split; [apply fold_bit_ops|]. split; [exact Hb|]. split; [exact E|].
  do 6 (split; [assumption|]).
  split; [|split; assumption].
  clear - Hq. induction Hq; cbn [map]; constructor; auto.
Qed.

(** C23, normal modes: one bit per coefficient, all the operations in single precision. *)
Theorem C23_residual hw buf pre post n xs :
  bytes buf -> Forall op_ok pre -> Forall op_ok post -> Forall (coded_f32 false) xs ->
  residual_ok rnd (refined false) false 1 hw buf pre post n xs.
Proof.
  intros Hb H1 H2 Hx. apply residual_frame; try assumption.
  - apply residual_lr. eapply Forall_impl; [|exact Hx]. intros x [F1 F2].
    split; [exact F1|exact F2].
  - eapply Forall_impl; [|exact Hx]. intros x [F1 F2]. apply quant_f32; [exact F1|exact F2|discriminate].
Qed.
Print Assumptions C23_residual.

(** C23, high resolution: in single precision both sides agree on the bits and on
    their attribution, leaving aside one magnitude, 1/2 - 2^-25 (see below)... *)
Theorem C23_residual_hr hw buf pre post n xs :
  bytes buf -> Forall op_ok pre -> Forall op_ok post -> Forall (coded_f32 true) xs ->
  Forall (fun x => Z.abs x <> one / 2 - one / 2 ^ 25) xs ->
  residual_ok rnd (same_zero true) true 20 hw buf pre post n xs.
Proof.
  intros Hb H1 H2 Hx Hy.
  assert (Hq : Forall (fun x => quantized true x (quant rnd true x)) xs).
  { apply Forall_forall. intros x Hi. rewrite Forall_forall in Hx, Hy.
    destruct (Hx x Hi) as [F1 F2]. specialize (Hy x Hi).
    apply quant_f32; [exact F1|exact F2|]. intros _. exact Hy. }
  apply residual_frame; try assumption. apply residual_hr. exact Hq.
Qed.
Print Assumptions C23_residual_hr.

(** ... and in exact arithmetic, for any coefficients, each bit received divides by
    two the distance to the original. *)
Theorem C23_residual_hr_exact hw buf pre post n xs :
  bytes buf -> Forall op_ok pre -> Forall op_ok post ->
  residual_ok (fun v => v) (refined true) true 20 hw buf pre post n xs.
Proof.
  intros Hb H1 H2. apply residual_frame; try assumption.
  - exact (residual_hr_exact xs n).
  - apply Forall_forall. intros x _. apply quant_exact.
Qed.
Print Assumptions C23_residual_hr_exact.

Lemma head2 {A B} (P : A -> B -> Prop) (f : A -> B) a l : Forall2 P (a :: l) (map f (a :: l)) -> P a (f a).
Proof. intros H. inversion H. assumption. Qed.

(** The magnitude left aside: it is quantized to one although below 1/2, gets no bit
    from the encoder, and takes the bit of the next coefficient in the decoder; the
    second coefficient, 1.40625, is then left at 1. *)
Theorem C23_residual_hr_refuted :
  exists xs, Forall (coded_f32 true) xs /\
    forall hw, ~ residual_ok rnd (same_zero true) true 20 hw [0] [] [] 1 xs.
Proof.
  exists [one / 2 - one / 2 ^ 25; 45 * one / 32]. split.
  { repeat (apply Forall_cons; [split; vm_compute; reflexivity|]). apply Forall_nil. }
  intros hw H. unfold residual_ok in H. cbv zeta in H.
  assert (C : w_check (fold_left wstep [] (put_residual rnd (fold_left wstep [] (w_setup [0])) 1 true
    [one / 2 - one / 2 ^ 25; 45 * one / 32])) = 0) by (vm_compute; reflexivity).
  specialize (H C). destruct H as (bits & ys & ms & r' & _ & _ & _ & _ & _ & _ & _ & _ & _ & HQ & _).
  apply head2 in HQ. destruct HQ as [HQ _]. revert HQ.
  assert (E : quant rnd true (one / 2 - one / 2 ^ 25) = 1) by (vm_compute; reflexivity). rewrite E.
  intros [HQ _]. revert HQ. vm_compute. congruence.
Qed.
Print Assumptions C23_residual_hr_refuted.

Example C23_lost_bit :
  let xs := [one / 2 - one / 2 ^ 25; 45 * one / 32] in
  let w := put_residual rnd (w_setup [0]) 1 true xs in
  let qs := map (fun x => quant rnd true x * one) xs in
  w_check w = 0 /\ qs = [one; one] /\
  fst (get_residual rnd (r_setup (fun v => v) (w_buf (flush_bits w))) 1 true qs) = [5 * one / 4; one] /\
  res_bound true 1 < Z.abs (one - 45 * one / 32).
Proof. vm_compute. auto. Qed.

(** Normal mode: -0.7, 0.3, 2.5, -1.2 in 1/1024, with three bits. *)
Example C23_example :
  let xs := map (fun v => v * one / 1024) [-717; 307; 2560; -1229] in
  let w := put_residual rnd (w_setup [0]) 3 false xs in
  let qs := map (fun x => quant rnd false x * one) xs in
  Forall (coded_f32 false) xs /\ w_check w = 0 /\ map (fun q => q / one) qs = [-1; 0; 2; -1] /\
  map (fun y => y * 16 / one) (fst (get_residual rnd (r_setup (fun v => v) (w_buf (flush_bits w))) 3 false qs)) =
    [-13; 0; 37; -21].
Proof.
  split.
  { repeat (apply Forall_cons; [split; vm_compute; reflexivity|]). apply Forall_nil. }
  vm_compute. auto.
Qed.

(** High resolution, ten bits for two coefficients. *)
Example C23_hr_example :
  let xs := map (fun v => v * one / 1024) [-717; 307; 2562] in
  let w := put_residual rnd (w_setup [0; 0]) 10 true xs in
  let qs := map (fun x => quant rnd true x * one) xs in
  Forall (coded_f32 true) xs /\ w_check w = 0 /\ map (fun q => q / one) qs = [-1; 0; 3] /\
  map (fun y => y * 1024 / one) (fst (get_residual rnd (r_setup (fun v => v) (w_buf (flush_bits w))) 10 true qs)) =
    [-720; 0; 2576].
Proof.
  split.
  { repeat (apply Forall_cons; [split; vm_compute; reflexivity|]). apply Forall_nil. }
  vm_compute. auto.
Qed.
