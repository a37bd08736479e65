(** * Specification of the transforms, on the real numbers *)
From Coq Require Import Reals ZArith List.
Import ListNotations.
Local Open Scope R_scope.

(** The sum of [f 0], ..., [f (n - 1)]. *)
Fixpoint sum_to (n : nat) (f : Z -> R) : R :=
  match n with O => 0 | S n => sum_to n f + f (Z.of_nat n) end.
Definition sum (n : Z) (f : Z -> R) : R := sum_to (Z.to_nat n) f.

(** Discrete Fourier transform of [P] complex points, real and imaginary parts:
    the point [k] is the sum of [(re m + i im m) * exp (- 2 i pi k m / P)]. *)
Definition dft_angle (P k m : Z) : R := 2 * PI * IZR (k * m) / IZR P.
Definition dft (P : Z) (re im : Z -> R) (k : Z) : R * R :=
  (sum P (fun m => re m * cos (dft_angle P k m) + im m * sin (dft_angle P k m)),
   sum P (fun m => im m * cos (dft_angle P k m) - re m * sin (dft_angle P k m))).

(** The kernel of the modified discrete cosine transform of [ns] coefficients. *)
Definition mdct_kernel (ns n k : Z) : R := cos (PI / IZR ns * (IZR n + 1 / 2 + IZR ns / 2) * (IZR k + 1 / 2)).

(** Coefficient [k] of the [2 ns] samples [t], on the window [w]. *)
Definition mdct (ns : Z) (w t : Z -> R) (k : Z) : R :=
  sqrt (2 / IZR ns) * sum (2 * ns) (fun n => w n * t n * mdct_kernel ns n k).

(** Sample [n], of [2 ns], of the inverse transform of the coefficients [X]. *)
Definition imdct (ns : Z) (X : Z -> R) (n : Z) : R :=
  sqrt (2 / IZR ns) * sum ns (fun k => X k * mdct_kernel ns n k).

(** The samples of a sequence of frames of [ns] samples; zero before the first one. *)
Definition samples (ns : Z) (frames : list (list R)) (p : Z) : R :=
  if (p <? 0)%Z then 0 else nth (Z.to_nat (p mod ns)) (nth (Z.to_nat (p / ns)) frames []) 0.

(** The gain of the windows of the two transforms, on the sample [n] of a frame. *)
Definition window_gain (ns : Z) (w : Z -> R) (n : Z) : R := w n * w (2 * ns - 1 - n)%Z + w (ns + n)%Z * w (ns - 1 - n)%Z.
