(** * NEON transforms in binary32, with the tables of the code *)
From Coq Require Import ZArith List Bool.
From Flocq Require Import Core.Core IEEE754.BinarySingleNaN.
From Verif Require Import Base ConfigModel MdctModel MdctWindows MdctNeonModel FloatOps F32Model.
Import ListNotations.
Local Open Scope Z_scope.

(** vfma_f32 and vfms_f32 on a lane: one rounding. The second one negates its first factor. *)
Definition Fma (a b c : f32) : f32 := Bfma mode_NE b c a.
Definition Fms (a b c : f32) : f32 := Bfma mode_NE (Bopp b) c a.

Section F32.
Context (nan : Z) (junk : f32).
Let fl : fops f32 := f32_ops nan.
Let f0 : f32 := f_z fl 0.

(** src/mdct.c lines 430-450: lc3_mdct_forward on AArch64, as [EncModel.forward]. *)
Definition neon_forward (dt srp sr : Z) (x d y : list f32) : option (list f32 * list f32) :=
  let ns := c_ns dt srp in let ns_dst := c_ns dt sr in
  neon_mdct_forward f0 (f_add fl) (f_sub fl) (f_mul fl) (f_opp fl) Fma Fms
    (code_fft (fun z => f_dy fl z 80)) (code_rot (fun z => f_dy fl z 80) dt srp) ns (c_nd dt srp)
    (code_win (fun z => f_dy fl z 47) dt srp) ns_dst (f_sqrt fl (f_div fl (f_z fl ns_dst) (f_z fl ns)))
    x d y (repeat junk (Z.to_nat MAX_NS)).

(** src/mdct.c lines 455-475: lc3_mdct_inverse on AArch64, as [SynthModel.inverse]. *)
Definition neon_inverse (dt srp sr : Z) (src : option (list f32)) (d y : list f32) : option (list f32 * list f32) :=
  let ns := c_ns dt srp in let ns_src := c_ns dt sr in
  neon_mdct_inverse f0 (f_add fl) (f_sub fl) (f_mul fl) (f_opp fl) Fma Fms
    (code_fft (fun z => f_dy fl z 80)) (code_rot (fun z => f_dy fl z 80) dt srp) ns (c_nd dt srp)
    (code_win (fun z => f_dy fl z 47) dt srp) ns_src (f_sqrt fl (f_div fl (f_z fl ns) (f_z fl ns_src)))
    src d y (repeat junk (Z.to_nat MAX_NS)).
End F32.
