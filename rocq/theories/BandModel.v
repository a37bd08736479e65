(** * Energies of the bands, near Nyquist flag and bandwidth detector: src/energy.c and src/bwdet.c *)
From Coq Require Import ZArith List Bool.
From Verif Require Import Base ConfigModel SideModel Tables FloatOps.
Import ListNotations.
Local Open Scope Z_scope.

(** src/tables.c lines 4325-4354: lc3_band_lim. *)
Definition lim_of (dt sr : Z) : list Z := znth (znth band_lim dt []) sr [].

(** src/tables.c lines 4356-4400: lc3_num_bands, 0 for the absent entries. *)
Definition num_bands (dt sr : Z) : Z := Z.max 0 (zlen (lim_of dt sr) - 1).

(** src/tables.h line 111: LC3_MAX_BANDS. *)
Definition MAX_BANDS : Z := 64.

Section Band.
Context {F : Type} (fl : fops F).

(** src/energy.c lines 39-47: mean of the squares of a band. *)
Definition band_energy (lim : list Z) (x : list F) (ib : Z) : option F :=
  do i <- rd lim ib;
  do ie <- rd lim (ib + 1);
  do v <- rd x i;
  do s <- for_ (i + 1) ie (fun i s => do v <- rd x i; Some (f_add fl s (f_mul fl v v))) (f_mul fl v v);
  Some (f_div fl s (f_z fl (ie - i))).

(** src/energy.c lines 26-54: lc3_energy_compute; flag and energies. The C code keeps its
    index in the spectrum from a band to the next, which is the same. *)
Definition energy_compute (dt sr : Z) (x : list F) : option (bool * list F) :=
  let nb := num_bands dt sr in
  let lim := lim_of dt sr in
  let ibh := nb - znth [2; 3; 4; 2] dt 0 in
  do st <- for_ 0 nb (fun ib '(e, s0, s1) =>
    do v <- band_energy lim x ib;
    Some (if ib <? ibh then (e ++ [v], f_add fl s0 v, s1) else (e ++ [v], s0, f_add fl s1 v)))
    ([], f_z fl 0, f_z fl 0);
  let '(e, s0, s1) := st in
  Some (f_lt fl (f_mul fl (f_z fl 30) s0) s1, e).

(** src/bwdet.c lines 32-68: bandwidth regions, start and end, of the bandwidths under the
    sample rate [sr] (16 kHz to 48 kHz). *)
Definition bw_regions (dt sr : Z) : list (Z * Z) :=
  znth (znth [
    [[(24, 35)]; [(24, 33); (35, 40)]; [(24, 32); (33, 39); (39, 43)]; [(22, 30); (31, 36); (37, 41); (41, 44)]];
    [[(39, 50)]; [(35, 45); (47, 52)]; [(34, 43); (44, 50); (50, 54)]; [(32, 41); (42, 47); (48, 52); (52, 55)]];
    [[(51, 64)]; [(45, 56); (58, 64)]; [(42, 52); (53, 59); (60, 64)]; [(40, 49); (51, 56); (57, 61); (61, 64)]];
    [[(53, 64)]; [(47, 57); (59, 64)]; [(44, 53); (54, 60); (60, 64)]; [(41, 50); (51, 56); (57, 61); (61, 64)]]]
    dt []) (sr - 1) [].

(** src/bwdet.c lines 70-75. *)
Definition bw_l (dt bw : Z) : Z := znth (znth [[4; 4; 3; 1]; [4; 4; 3; 1]; [4; 4; 3; 2]; [4; 4; 3; 1]] dt []) bw 0.

(** src/bwdet.c lines 109-110: 31.62277660f, 199.52623150f, 100 and 100, times 2^19. *)
Definition bw_tc : list Z := [16579442; 104609208; 52428800; 52428800].

(** src/bwdet.c lines 89-97: energy of a region, at the least 10 by band, 20 at 8 kHz. *)
Definition region_loud (e : list F) (bwr : list (Z * Z)) (bw : Z) : option bool :=
  do r <- rd bwr bw;
  let '(i, ie) := r in
  do v <- rd e i;
  do se <- for_ (i + 1) ie (fun i s => do v <- rd e i; Some (f_add fl s v)) v;
  Some (f_le fl (f_z fl ((if bw =? 0 then 20 else 10) * (ie - i))) se).

(** src/bwdet.c lines 112-114: drop above the cut-off frequency. *)
Definition bw_drop (e : list F) (i0 l tc : Z) : option bool :=
  for_ (i0 - l + 1) (i0 + 2) (fun i (hold : bool) =>
    if hold then Some true
    else do a <- rd e (i - l); do b <- rd e i; Some (f_lt fl (f_mul fl (f_dy fl tc 19) b) a)) false.

(** src/bwdet.c lines 25-119: lc3_bwdet_run. *)
Definition bwdet_run (dt sr : Z) (e : list F) : option Z :=
  if (sr <=? 0) || is_hr sr then Some sr
  else
    let bwr := bw_regions dt sr in
    do bw0 <- for_ 0 sr (fun bw bw0 => do b <- region_loud e bwr bw; Some (if (b : bool) then bw + 1 else bw0)) 0;
    if sr <=? bw0 then Some bw0
    else
      do r <- rd bwr bw0;
      do tc <- rd bw_tc bw0;
      do hold <- bw_drop e (fst r) (bw_l dt bw0) tc;
      Some (if (hold : bool) then bw0 else sr).

End Band.
