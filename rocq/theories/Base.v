(** * Common definitions: C integer helpers, byte buffers as lists *)
From Coq Require Import ZArith List Bool.
Import ListNotations.
Local Open Scope Z_scope.

(** Length and access with [Z] indexes; out-of-range reads give the default
    and are flagged by the callers. *)
Definition zlen {A} (l : list A) : Z := Z.of_nat (length l).

Definition znth {A} (l : list A) (i : Z) (d : A) : A :=
  if i <? 0 then d else nth (Z.to_nat i) l d.

Definition inb (i n : Z) : bool := (0 <=? i) && (i <? n).

(** Replacement of the element at index [i] (unchanged when out of range). *)
Fixpoint upd_nat {A} (l : list A) (i : nat) (v : A) : list A :=
  match l, i with
  | [], _ => []
  | _ :: t, O => v :: t
  | h :: t, S j => h :: upd_nat t j v
  end.

Definition upd {A} (l : list A) (i : Z) (v : A) : list A :=
  if i <? 0 then l else upd_nat l (Z.to_nat i) v.

(** C [unsigned] (32 bits) wrap-around, and conversion to [uint8_t]. *)
Definition u32 (x : Z) : Z := x mod 2 ^ 32.
Definition u16 (x : Z) : Z := x mod 2 ^ 16.
Definition u8 (x : Z) : Z := x mod 2 ^ 8.

(** Conversion to [int32_t] / [int16_t] (two's complement). *)
Definition i32 (x : Z) : Z := (x + 2 ^ 31) mod 2 ^ 32 - 2 ^ 31.
Definition i16 (x : Z) : Z := (x + 2 ^ 15) mod 2 ^ 16 - 2 ^ 15.

(** Range of C [int]. *)
Definition INT_MAX : Z := 2 ^ 31 - 1.
Definition INT_MIN : Z := - 2 ^ 31.
Definition is_int (x : Z) : Prop := INT_MIN <= x <= INT_MAX.

(** Shifts of non-negative values, written with multiplication and division. *)
Definition shl (x n : Z) : Z := x * 2 ^ n.
Definition shr (x n : Z) : Z := x / 2 ^ n.

(** Conversion of C truth values. *)
Definition b2z (b : bool) : Z := if b then 1 else 0.

(** src/common.h lines 85-92: LC3_MIN, LC3_MAX, LC3_CLIP, LC3_SAT16/24, LC3_ABS
    ([Z.min], [Z.max] and [Z.abs] are used directly for MIN, MAX, ABS). *)
Definition clip (v lo hi : Z) : Z := Z.min (Z.max v lo) hi.
Definition sat16 (v : Z) : Z := clip v (- 2 ^ 15) (2 ^ 15 - 1).
Definition sat24 (v : Z) : Z := clip v (- 2 ^ 23) (2 ^ 23 - 1).

(** The integer whose big-endian digits in base 256 are the bytes [l]. *)
Definition bval (l : list Z) : Z := fold_left (fun a b => a * 256 + b) l 0.

(** A list of bytes. *)
Definition bytes (l : list Z) : Prop := Forall (fun b => 0 <= b < 256) l.
