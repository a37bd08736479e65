(** * Properties C21 and C22: coding of the spectrum
    As for the side data, [pre] and [post] are any operations before and after,
    in the same frame. *)
From Coq Require Import ZArith List Bool Lia.
From Verif Require Import Base BaseProofs BitsModel BitsWriteSafe BitsAbstract BitsReadSim.
From Verif Require Import BitsReadSafe BitsRoundTrip ConfigModel SideProofs FrameBase.
From Verif Require Import SpecModel SpecSpec SpecFrame.
Import ListNotations.
Local Open Scope Z_scope.

(** C21. The spectrum is read back (without the bits left aside in LSB mode) with
    the noise seed of what is decoded, and, as soon as 22 plain bits precede it
    (38 in any frame), the count of bits that remain is the same on both sides. *)
Theorem C21_spectrum_round_trip hw buf pre post dt sr nbytes xs lsb :
  bytes buf -> Forall op_ok pre -> Forall op_ok post -> spectrum_ok dt sr xs ->
  let w1 := put_quantized (fold_left wstep pre (w_setup buf)) dt sr nbytes xs lsb in
  let w := fold_left wstep post w1 in
  w_check w = 0 ->
  exists r',
    get_quantized (snd (rsteps (r_setup hw (w_buf (flush_bits w))) pre)) dt sr nbytes (zlen xs) lsb =
      (Some (without_lsb lsb xs, seed_of (without_lsb lsb xs)), r') /\
    r_oob r' = false /\ r_ub r' = false /\ r_stuck r' = false /\
    (22 <= wops_bits pre -> r_bits_left r' = w_bits_left w1).
Proof.
  intros Hb H1 H2 H w1 w. unfold w, w1. rewrite put_quantized_ops by exact H. intros Hc.
  destruct (frame_reads_left hw buf pre _ post _ _ Hb H1 (quantized_ops_ok dt sr nbytes xs lsb) H2
    (get_quantized_reads dt sr nbytes xs lsb H) Hc) as (r' & E & (F1 & F2 & F3) & _ & _ & HL).
  exists r'. auto 10.
Qed.
Print Assumptions C21_spectrum_round_trip.

(** Without LSB mode the spectrum itself is read back. *)
Theorem C21_spectrum_exact hw buf pre post dt sr nbytes xs :
  bytes buf -> Forall op_ok pre -> Forall op_ok post -> spectrum_ok dt sr xs ->
  let w := fold_left wstep post
    (put_quantized (fold_left wstep pre (w_setup buf)) dt sr nbytes xs false) in
  w_check w = 0 ->
  fst (get_quantized (snd (rsteps (r_setup hw (w_buf (flush_bits w))) pre)) dt sr nbytes (zlen xs) false) =
    Some (xs, seed_of xs).
Proof.
  intros Hb H1 H2 H w Hc.
  destruct (C21_spectrum_round_trip hw buf pre post dt sr nbytes xs false Hb H1 H2 H Hc) as (r' & E & _).
  fold w in E. rewrite E. cbn [fst]. replace (without_lsb false xs) with xs; [reflexivity|].
  clear. induction xs as [|x|x0 x1 xs IH] using pair_ind; cbn [without_lsb andb app]; congruence.
Qed.
Print Assumptions C21_spectrum_exact.

Example C21_spectrum_example :
  let xs := [3; -1; 0; 0; 65535; -40000; 1; 7; -5; 0] in
  spectrum_ok 3 4 xs /\
  let w := put_quantized (w_setup (repeat 0 60)) 3 4 60 xs false in
  w_check w = 0 /\
  fst (get_quantized (r_setup (fun v => v) (w_buf (flush_bits w))) 3 4 60 10 false) =
    Some (xs, seed_of xs) /\ seed_of xs = 36252.
Proof.
  split.
  - split; [vm_compute; discriminate|]. split; [reflexivity|].
    repeat (apply Forall_cons; [vm_compute; reflexivity|]). apply Forall_nil.
  - vm_compute. auto.
Qed.

(** C22. [n] is any number of bits. Reading the least significant bits after the
    pairs restores the coefficients in order as long as the bits allow it, and
    gives the seed of the restored spectrum; the bits consumed are the same. *)
Definition read_lsb_spectrum (r : rst) (dt sr nbytes nq n : Z) : (list Z * Z) * rst :=
  let '(o, r) := get_quantized r dt sr nbytes nq true in
  match o with
  | Some (ts, seed) => get_lsb r n ts 0 seed
  | None => (([], 0), r)
  end.

Theorem C22_lsb_round_trip hw buf pre post dt sr nbytes xs n :
  bytes buf -> Forall op_ok pre -> Forall op_ok post -> spectrum_ok dt sr xs ->
  let w1 := put_lsb (put_quantized (fold_left wstep pre (w_setup buf)) dt sr nbytes xs true) n xs in
  let w := fold_left wstep post w1 in
  let ys := restore n (lsb_stream xs) xs (without_lsb true xs) in
  w_check w = 0 ->
  exists r',
    read_lsb_spectrum (snd (rsteps (r_setup hw (w_buf (flush_bits w))) pre)) dt sr nbytes (zlen xs) n =
      ((ys, seed_of ys), r') /\
    r_oob r' = false /\ r_ub r' = false /\ r_stuck r' = false /\
    (22 <= wops_bits pre -> r_bits_left r' = w_bits_left w1).
Proof.
  intros Hb H1 H2 H w1 w ys. unfold w, w1. rewrite put_quantized_ops, put_lsb_ops by exact H.
  rewrite <- (fold_left_app wstep (quantized_ops dt sr nbytes xs true) (lsb_ops n xs)). intros Hc.
  assert (R : Reads (fun r => read_lsb_spectrum r dt sr nbytes (zlen xs) n)
     (quantized_ops dt sr nbytes xs true ++ lsb_ops n xs) (ys, seed_of ys)).
  { unfold read_lsb_spectrum.
    apply (Reads_bind _ (fun o r => match o with
      | Some (ts, seed) => get_lsb r n ts 0 seed | None => (([], 0), r) end) _ _ _ _
      (quantized_ops_ok _ _ _ _ _) (lsb_ops_ok _ _) (get_quantized_reads dt sr nbytes xs true H)).
    exact (get_lsb_reads0 xs n (proj1 (proj2 H))). }
  assert (Hok : Forall op_ok (quantized_ops dt sr nbytes xs true ++ lsb_ops n xs)).
  { apply Forall_app. split; [apply quantized_ops_ok|apply lsb_ops_ok]. }
  destruct (frame_reads_left hw buf pre _ post _ _ Hb H1 Hok H2 R Hc)
    as (r' & E & (F1 & F2 & F3) & _ & _ & HL).
  exists r'. auto 10.
Qed.
Print Assumptions C22_lsb_round_trip.

(** All the coefficients are restored when the bits are sufficient, and otherwise
    a coefficient is exact or rounded down to an even magnitude. *)
Theorem C22_restore_complete xs n : zlen (concat (lsb_stream xs)) <= n ->
  restore n (lsb_stream xs) xs (without_lsb true xs) = xs.
Proof. exact (restore_all xs n). Qed.
Print Assumptions C22_restore_complete.

Theorem C22_restore_each xs n : Z.even (zlen xs) = true ->
  Forall2 (fun x y => y = x \/ y = even_part x) xs
    (restore n (lsb_stream xs) xs (without_lsb true xs)).
Proof. intros H. exact (restore_each xs H n). Qed.
Print Assumptions C22_restore_each.

(** Two pairs are large; with 5 bits the sign of the second [-1] is missing. *)
Example C22_example :
  let xs := [7; -1; 2; 3; -1; 9] in
  spectrum_ok 3 4 xs /\ concat (lsb_stream xs) = [1; 1; 1; 1; 1; 1] /\
  without_lsb true xs = [6; 0; 2; 3; 0; 8] /\
  let w n := put_lsb (put_quantized (w_setup (repeat 0 60)) 3 4 60 xs true) n xs in
  let r n := r_setup (fun v => v) (w_buf (flush_bits (w n))) in
  w_check (w 6) = 0 /\
  fst (fst (read_lsb_spectrum (r 6) 3 4 60 6 6)) = xs /\
  fst (fst (read_lsb_spectrum (r 5) 3 4 60 6 5)) = [7; -1; 2; 3; -1; 8] /\
  fst (fst (read_lsb_spectrum (r 4) 3 4 60 6 4)) = [7; -1; 2; 3; 0; 8].
Proof.
  split.
  - split; [vm_compute; discriminate|]. split; [reflexivity|].
    repeat (apply Forall_cons; [vm_compute; reflexivity|]). apply Forall_nil.
  - vm_compute. auto 10.
Qed.
