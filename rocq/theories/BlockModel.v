(** * Frame blocks of several channels: include/lc3_cpp.h, python/lc3.py, tools/elc3.c, tools/dlc3.c *)
From Coq Require Import ZArith List Bool.
From Verif Require Import Base.
Import ListNotations.
Local Open Scope Z_scope.

(** python/lc3.py lines 363, 510-512, tools/elc3.c lines 260-261, tools/dlc3.c lines
    242-243: size of the frame of the channel [i] of [n], in a block of [b] bytes. The
    operands are [int], not negative for the tools. *)
Definition frame_size (b n i : Z) : Z := b / n + b2z (i <? b mod n).

(** include/lc3_cpp.h lines 104-105 and 217-218: the same in [size_t] (64 bits), from an
    [int] block size converted to it, the result converted to [int]. *)
Definition u64 (x : Z) : Z := x mod 2 ^ 64.
Definition cpp_frame_size (b n i : Z) : Z := i32 (u64 (u64 b / n + b2z (i <? u64 b mod n))).

(** include/lc3_cpp.h lines 102-111 and 215-224, python/lc3.py lines 355-366 and 504-514,
    tools/elc3.c lines 258-268, tools/dlc3.c lines 240-251: offset and size of the frames,
    the [k] last from the channel [i]. *)
Fixpoint slots_from (size : Z -> Z) (k : nat) (i off : Z) : list (Z * Z) :=
  match k with
  | O => []
  | S k => (off, size i) :: slots_from size k (i + 1) (off + size i)
  end.
Definition slots (b n : Z) : list (Z * Z) := slots_from (frame_size b n) (Z.to_nat n) 0 0.
Definition cpp_slots (b n : Z) : list (Z * Z) := slots_from (cpp_frame_size b n) (Z.to_nat n) 0 0.

(** Write and read of bytes of a buffer. *)
Definition store (out : list Z) (off : Z) (data : list Z) : list Z :=
  firstn (Z.to_nat off) out ++ data ++ skipn (Z.to_nat (off + zlen data)) out.
Definition slice (data : list Z) (off size : Z) : list Z := firstn (Z.to_nat size) (skipn (Z.to_nat off) data).

(** The encoding of a block, [enc i size] being the bytes that lc3_encode outputs for the
    channel [i]; and the data given to lc3_decode for each channel. *)
Fixpoint encode_slots (enc : Z -> Z -> list Z) (i : Z) (ss : list (Z * Z)) (out : list Z) : list Z :=
  match ss with
  | [] => out
  | (off, size) :: ss => encode_slots enc (i + 1) ss (store out off (enc i size))
  end.
Definition encode_block (enc : Z -> Z -> list Z) (b n : Z) (out : list Z) : list Z := encode_slots enc 0 (slots b n) out.
Definition decode_block (data : list Z) (n : Z) : list (list Z) :=
  map (fun '(off, size) => slice data off size) (slots (zlen data) n).

(** ** PCM buffers *)

(** include/lc3.h lines 222-228: bytes of a sample. *)
Inductive pcm_fmt := S16 | S24 | S24_3LE | F32.
Definition fmt_size (f : pcm_fmt) : Z := match f with S16 => 2 | S24 => 4 | S24_3LE => 3 | F32 => 4 end.

(** include/lc3_cpp.h lines 164-202 and 273-308: the entries, as the format given to the
    codec and the size of the elements of the pointer to the samples. *)
Inductive cpp_entry :=
  | Encode_int16 | Encode_int32 | Encode_float | Encode_fmt (f : pcm_fmt)
  | Decode_int16 | Decode_int32 | Decode_float | Decode_fmt (f : pcm_fmt).
Definition entry_fmt (e : cpp_entry) : pcm_fmt :=
  match e with
  | Encode_int16 => S16 | Encode_int32 => S24 | Encode_float => F32 | Encode_fmt f => f
  | Decode_int16 => S16 | Decode_int32 => S24_3LE | Decode_float => F32 | Decode_fmt f => f
  end.
Definition entry_elt (e : cpp_entry) : Z :=
  match e with
  | Encode_int16 | Decode_int16 => 2
  | Encode_int32 | Decode_int32 => 4
  | Encode_float | Decode_float => 4
  | Encode_fmt f | Decode_fmt f => match f with S16 => 2 | S24 => 4 | S24_3LE => 3 | F32 => 4 end
  end.

(** include/lc3_cpp.h lines 107 and 220: [pcm + ich] is in elements; src/lc3.c lines 190-277
    and 475-562: the sample [i] is at [i * stride] elements of the format, [stride = n]. *)
Definition sample_addr (elt : Z) (f : pcm_fmt) (n ich i : Z) : Z := elt * ich + fmt_size f * (n * i).

(** python/lc3.py lines 339-353: size in bytes of the PCM buffer of the encoder, from
    [len] the count of values (float) or of bytes given. *)
Definition py_float_size (len n samples : Z) : Z := 4 * (len + Z.max (n * samples - samples) 0).
Definition py_bytes_size (f : pcm_fmt) (len n samples : Z) : Z := len + Z.max (n * samples * fmt_size f - len) 0.
(** lines 360-361, 507-508: part of the buffer of a channel, as an offset and a size; the
    call fails when out of the buffer. *)
Definition py_part (f : pcm_fmt) (n samples ich : Z) : Z * Z := (ich * fmt_size f, (n * samples - ich) * fmt_size f).
Definition from_buffer_ok (len : Z) (p : Z * Z) : bool := (0 <=? fst p) && (0 <=? snd p) && (fst p + snd p <=? len).
