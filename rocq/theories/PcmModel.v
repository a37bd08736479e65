(** * PCM samples: input and output conversions
    Finite single precision numbers are integers in units of 2^-149 ([FloatModel]). *)
From Coq Require Import ZArith List Bool.
From Verif Require Import Base ConfigModel FloatModel.
Import ListNotations.
Local Open Scope Z_scope.

(** A single precision value. *)
Inductive f32 := Fin (x : Z) | Inf (neg : bool) | NaN.

(** IEEE 754 pattern of the finite number [x], on 32 bits: exponent field of a
    magnitude, pattern of a magnitude, sign. *)
Definition exp_field (a : Z) : Z := Z.max 0 (Z.log2 a - 22).
Definition mag_bits (a : Z) : Z := if exp_field a =? 0 then a else exp_field a * 2 ^ 23 + (a / 2 ^ (exp_field a - 1) - 2 ^ 23).
Definition to_bits (x : Z) : Z := (if x <? 0 then 2 ^ 31 else 0) + mag_bits (Z.abs x).

(** The value of a pattern, from its sign and its 31 other bits. *)
Definition of_mag (neg : bool) (b : Z) : f32 :=
  let e := b / 2 ^ 23 in
  let m := b mod 2 ^ 23 in
  if e =? 255 then (if m =? 0 then Inf neg else NaN)
  else
    let a := if e =? 0 then m else (2 ^ 23 + m) * 2 ^ (e - 1) in
    Fin (if neg then - a else a).
Definition of_bits (u : Z) : f32 := of_mag (2 ^ 31 <=? u) (u mod 2 ^ 31).

(** src/fastmath.h lines 45-52: lc3_ldexpf, on the pattern as a signed integer. [None]
    is the overflow of the signed addition. *)
Definition ldexpf (x exp : Z) : option f32 :=
  let s := i32 (to_bits x) in
  if exp_field (Z.abs x) =? 0 then Some (Fin x)
  else
    match cint (s + exp * 2 ^ 23) with
    | Some s => Some (of_bits (u32 s))
    | None => None
    end.

(** Conversion of a float to [int32_t]: truncation, undefined ([None]) out of range. *)
Definition to_int (x : f32) : option Z :=
  match x with Fin x => cint (Z.quot x one) | _ => None end.

(** Sum with the finite number [y]. *)
Definition addf (x : f32) (y : Z) : f32 :=
  match x with Fin x => Fin (rnd (x + y)) | v => v end.

(** ** Input: the sample for the time domain analysis and the float sample. *)

(** src/lc3.c lines 202-203. *)
Definition load_s16 (v : Z) : Z * option f32 := (v, Some (Fin (rnd (v * one)))).

(** src/lc3.c lines 223-226. *)
Definition load_s24 (v : Z) : Z * option f32 := (i16 (v / 2 ^ 8), ldexpf (rnd (v * one)) (-8)).

(** src/lc3.c lines 246-253. *)
Definition load_s24_3le (b0 b1 b2 : Z) : Z * option f32 :=
  let v := i32 (Z.lor (Z.lor (shl b0 8) (shl b1 16)) (shl b2 24)) in
  (i16 (v / 2 ^ 16), ldexpf (rnd (v * one)) (-16)).

(** src/lc3.c lines 273-276: the conversion to an integer can be undefined. *)
Definition load_float (x : Z) : option (Z * f32) :=
  match ldexpf x 15 with
  | None => None
  | Some xs => match to_int xs with None => None | Some t => Some (i16 (sat16 t), xs) end
  end.

(** ** Output *)

(** Rounding of src/lc3.c lines 487, 509 and 532, from the sign of [x]. *)
Definition round_int (x : Z) (v : f32) : option Z :=
  to_int (if 0 <=? x then addf v (one / 2) else addf v (- (one / 2))).

(** src/lc3.c lines 486-489. *)
Definition store_s16 (x : Z) : option Z := option_map sat16 (round_int x (Fin x)).

(** src/lc3.c lines 508-512. *)
Definition store_s24 (x : Z) : option Z :=
  match ldexpf x 8 with Some v => option_map sat24 (round_int x v) | None => None end.

(** src/lc3.c lines 531-539. *)
Definition store_s24_3le (x : Z) : option (list Z) :=
  option_map (fun s => [Z.land s 255; Z.land (s / 2 ^ 8) 255; Z.land (s / 2 ^ 16) 255]) (store_s24 x).

(** src/lc3.c lines 558-561: fmaxf and fminf return the other operand of a NaN. *)
Definition fmax_fin (x : f32) (y : Z) : f32 :=
  match x with Fin x => Fin (Z.max x y) | Inf neg => if neg then Fin y else x | NaN => Fin y end.
Definition fmin_fin (x : f32) (y : Z) : f32 :=
  match x with Fin x => Fin (Z.min x y) | Inf neg => if neg then x else Fin y | NaN => Fin y end.
Definition store_float (x : Z) : option f32 :=
  match ldexpf x (-15) with
  | Some s => Some (fmin_fin (fmax_fin s (- one)) one)
  | None => None
  end.

(** ** Strided accesses *)

(** src/lc3.c lines 202, 223, 246 and 273: [n] samples of [k] elements, read from the
    index [pos] and spaced by [stride] samples; [None] when out of the buffer [mem]. *)
Fixpoint get_samples {A} (k : nat) (stride : Z) (n : nat) (mem : list A) (pos : Z) : option (list (list A)) :=
  match n with
  | O => Some []
  | S n =>
      if (0 <=? pos) && (pos + Z.of_nat k <=? zlen mem) then
        option_map (cons (firstn k (skipn (Z.to_nat pos) mem)))
          (get_samples k stride n mem (pos + Z.of_nat k * stride))
      else None
  end.

(** Write of the elements [v] at the index [pos]. *)
Fixpoint put_elems {A} (mem : list A) (pos : Z) (v : list A) : list A :=
  match v with [] => mem | b :: v => put_elems (upd mem pos b) (pos + 1) v end.

(** src/lc3.c lines 486, 508, 531 and 558. *)
Fixpoint put_samples {A} (k : nat) (stride : Z) (mem : list A) (pos : Z) (xs : list (list A)) : option (list A) :=
  match xs with
  | [] => Some mem
  | v :: xs =>
      if (0 <=? pos) && (pos + Z.of_nat k <=? zlen mem) then
        put_samples k stride (put_elems mem pos v) (pos + Z.of_nat k * stride) xs
      else None
  end.
