(** src/AMReX/CartesianGridGeometry.cpp: the coarse geometry and the box of cells for a region. *)
From Coq Require Import List Reals ZArith.
Import ListNotations.
Local Open Scope Z_scope.

(** One axis of an amrex::Geometry with its index domain; include/fub/AMReX/CartesianGridGeometry.hpp:43-47 *)
Record axis := mkAxis { a_offset : R; a_dx : R; a_small : Z; a_big : Z }.
(** amrex::Geometry::CellCenter(i, d), called in CartesianGridGeometry.cpp:43 (AMReX: offset + dx * (0.5 + i)) *)
Definition CellCenter (a : axis) (i : Z) : R := (a_offset a + a_dx a * (1 / 2 + IZR i))%R.
(** The loop indices of line 42: from smallEnd, less than bigEnd *)
Definition loop_range (lo hi : Z) : list Z := map (fun k => lo + Z.of_nat k) (seq 0 (Z.to_nat (hi - lo))).
(** Body of the loop, lines 43-49 *)
Definition box_step (a : axis) (xlo xhi : R) (b : Z * Z) (i : Z) : Z * Z :=
  let x := CellCenter a i in
  let lo := if Rlt_dec x xlo then Z.max (fst b) i else fst b in
  let up := if Rlt_dec xhi x then Z.min (snd b) i else snd b in
  (lo, up).
(** One turn of the outer loop, lines 41-51 *)
Definition box_axis (a : axis) (xlo xhi : R) : Z * Z := fold_left (box_step a xlo xhi) (loop_range (a_small a) (a_big a)) (a_small a, a_big a).
(** BoxWhichContains, lines 36-53; the box is a pair of bounds for each axis *)
Fixpoint BoxWhichContains (geom : list axis) (xbox : list (R * R)) : list (Z * Z) :=
  match geom, xbox with
  | a :: geom', (xlo, xhi) :: xbox' => box_axis a xlo xhi :: BoxWhichContains geom' xbox'
  | _, _ => []
  end.
(** GetCoarseGeometry, lines 55-63: cells 0 to n - 1 and, in amrex::Geometry, the cell size from the coordinates; periodicity is left out *)
Definition coarse_axis (n : Z) (coordinates : R * R) : axis :=
  mkAxis (fst coordinates) ((snd coordinates - fst coordinates) / IZR n)%R 0 (n - 1).
Fixpoint GetCoarseGeometry (cell_dimensions : list Z) (coordinates : list (R * R)) : list axis :=
  match cell_dimensions, coordinates with n :: ns, c :: cs => coarse_axis n c :: GetCoarseGeometry ns cs | _, _ => [] end.
(** DomainAroundCenter, lines 65-70 *)
Fixpoint DomainAroundCenter (x rx : list R) : list (R * R) :=
  match x, rx with a :: x', r :: rx' => (a - r, a + r)%R :: DomainAroundCenter x' rx' | _, _ => [] end.
