(** * Enumeration of pulse vectors (SNS) *)
From Coq Require Import ZArith List Bool.
From Verif Require Import Base Tables.
Import ListNotations.
Local Open Scope Z_scope.

(** src/tables.c lines 4623-4640: lc3_sns_mpvq_offsets [16][11]. *)
Definition mpvq_offset (i j : Z) : Z := znth (znth sns_mpvq_offsets i []) j 0.

(** src/sns.c line 612: scan for the first significant coefficient, from the end
    of the vector (the list is reversed). [None] is a read before the vector. *)
Fixpoint enum_skip (rc : list Z) (i : Z) : option (Z * Z * list Z) :=
  match rc with
  | [] => None
  | ci :: rc => if (ci =? 0) && (i <? 15) then enum_skip rc (i + 1) else Some (ci, i, rc)
  end.

(** src/sns.c lines 621-629: the remaining coefficients. [rc] are the [n - i]
    elements that precede in the vector. *)
Fixpoint enum_loop (rc : list Z) (i j idx : Z) (ls : bool) : Z * bool :=
  match rc with
  | [] => (idx, ls)
  | ci :: rc =>
      let '(idx, ls) := if negb (ci =? 0)
                        then (Z.lor (shl idx 1) (b2z ls), ci <? 0) else (idx, ls) in
      let idx := idx + mpvq_offset i (Z.min j 10) in
      enum_loop rc (i + 1) (j + Z.abs ci) idx ls
  end.

(** src/sns.c lines 606-630: enum_mvpq. *)
Definition enum_mvpq (c : list Z) : option (Z * bool) :=
  match enum_skip (rev c) 0 with
  | None => None
  | Some (ci, i, rc) => Some (enum_loop rc (i + 1) (Z.abs ci) 0 (ci <? 0))
  end.

(** src/sns.c line 647: search of the pulses of a coefficient, [j] is
    [npulses - ci]. [None] is a read before the row of the table. *)
Fixpoint deenum_find (fuel : nat) (i idx j : Z) : option Z :=
  match fuel with
  | O => None
  | S fuel => if j <? 0 then None
              else if idx <? mpvq_offset i j then deenum_find fuel i idx (j - 1) else Some j
  end.

(** src/sns.c lines 638-667: deenum_mvpq, [n] the coefficients that remain. *)
Fixpoint deenum_mvpq (n : nat) (idx : Z) (ls : bool) (npulses : Z) : option (list Z) :=
  match n with
  | O => Some []
  | S i =>
      if idx =? 0 then Some ((if ls then - npulses else npulses) :: repeat 0 i)
      else
        match deenum_find (S (Z.to_nat npulses)) (Z.of_nat i) idx npulses with
        | None => None
        | Some j =>
            let ci := npulses - j in
            let idx := idx - mpvq_offset (Z.of_nat i) j in
            let ls' := if 0 <? ci then negb (Z.land idx 1 =? 0) else ls in
            let idx := if 0 <? ci then shr idx 1 else idx in
            option_map (cons (if ls then - ci else ci)) (deenum_mvpq i idx ls' j)
        end
  end.

(** src/sns.c lines 677-684: enumerate; the second set is there for shape 0. *)
Definition enumerate (shape : Z) (c : list Z) : option ((Z * bool) * option (Z * bool)) :=
  match enum_mvpq (firstn (if shape <? 2 then 10%nat else 16%nat) c) with
  | None => None
  | Some a =>
      if shape =? 0 then
        match enum_mvpq (skipn 10 c) with None => None | Some b => Some (a, Some b) end
      else Some (a, None)
  end.

(** src/sns.c lines 693-704: deenumerate. *)
Definition deenumerate (shape idx_a : Z) (ls_a : bool) (idx_b : Z) (ls_b : bool)
  : option (list Z) :=
  let npulses_a := znth [10; 10; 8; 6] shape 0 in
  match deenum_mvpq (if shape <? 2 then 10%nat else 16%nat) idx_a ls_a npulses_a with
  | None => None
  | Some a =>
      if shape =? 0 then
        match deenum_mvpq 6 idx_b ls_b 1 with None => None | Some b => Some (a ++ b) end
      else if shape =? 1 then Some (a ++ repeat 0 6)
      else Some a
  end.
