(** Model of the boundary conditions that fill ghost cells from cells of the domain.

    Sources (all paths relative to /repo):
    - src/boundary_condition/ReflectiveBoundary.cpp, include/fub/boundary_condition/ReflectiveBoundary.hpp
    - include/fub/AMReX/boundary_condition/ReflectiveBoundary.hpp, ConstantBoundary.hpp
    - src/AMReX/boundary_condition/TransmissiveBoundary.cpp, BoundarySet.cpp
    - include/fub/boundary_condition/TransmissiveBoundary.hpp
    - include/fub/AnyBoundaryCondition.hpp

    Simplifications: the data of one patch is a function from indices to states of any type [S]; a box of
    AMReX is the half open [IndexBox] with the same cells; a load or store outside of the box of the data
    is an undefined outcome ([None]).  The decomposition that AMReX's [complementIn] returns is a
    parameter ([boundaries]). *)
From Coq Require Import ZArith List Bool Lia.
From Verif Require Import ArrayModel.
Import ListNotations.
Open Scope Z_scope.

(** src/boundary_condition/ReflectiveBoundary.cpp:24-37 [ReflectIndex_] *)
Definition ReflectIndex (i : index) (fillbox : IndexBox) (dir : nat) (side : Z) : index :=
  if side =? 0 then
    let distance := nthZ (upper fillbox) dir - nthZ i dir in
    set_nth i dir (nthZ i dir + (2 * distance - 1))
  else
    let distance := nthZ i dir - (nthZ (lower fillbox) dir - 1) in
    set_nth i dir (nthZ i dir - 2 * distance + 1).

(** src/AMReX/boundary_condition/TransmissiveBoundary.cpp:31-42 [MapToSrc]; bigEnd is the last cell *)
Definition MapToSrc (domain : IndexBox) (dest : index) (dir : nat) (side : Z) : index :=
  let boundary := (if side =? 0 then nthZ (lower domain) dir else 0) +
                  (if side =? 1 then nthZ (upper domain) dir - 1 else 0) in
  set_nth dest dir boundary.

(** include/fub/boundary_condition/TransmissiveBoundary.hpp:44-75 [FillBoundary]: the cell that is copied
    to the ghost cell [dest] of the box *)
Definition TransmissiveIndex (box : IndexBox) (dest : index) (dir : nat) (fill_width side : Z) : index :=
  if side =? 0 then set_nth dest dir (nthZ (lower box) dir + fill_width)
  else set_nth dest dir (nthZ (upper box) dir - fill_width - 1).

(** include/fub/AnyBoundaryCondition.hpp:141 [GetSign] *)
Definition GetSign (side : Z) : Z := (if side =? 0 then 1 else 0) - (if side =? 1 then 1 else 0).

Section Data.
Context {S : Type}.

(** The data of one patch: include/fub/State.hpp, a view of states; only the indices in the box of the
    view exist *)
Definition fab := index -> S.

(** include/fub/State.hpp [Store] at one index *)
Definition put (d : fab) (i : index) (s : S) : fab :=
  fun k => if list_eq_dec Z.eq_dec k i then s else d k.

(** include/fub/boundary_condition/ReflectiveBoundary.hpp:62-67, the body of the loop: [Load] at [src],
    [Reflect] ([f]), [Store] at [dest].  An access outside of the box of the view is undefined. *)
Definition transfer (f : S -> S) (box : IndexBox) (dest src : index) (d : option fab) : option fab :=
  match d with
  | None => None
  | Some d => if ContainsIndex box src && ContainsIndex box dest then Some (put d dest (f (d src))) else None
  end.

(** include/fub/boundary_condition/ReflectiveBoundary.hpp:57-69 [FillBoundary] *)
Definition FillReflective (f : S -> S) (states box_to_fill : IndexBox) (dir : nat) (side : Z)
    (d : option fab) : option fab :=
  ForEachIndex box_to_fill
    (fun dest => transfer f states dest (ReflectIndex dest box_to_fill dir side)) d.

(** src/AMReX/boundary_condition/TransmissiveBoundary.cpp:80-86, the loop over the cells; all components
    of one cell are copied at once here, the code copies component after component *)
Definition FillTransmissive (domain states box_to_fill : IndexBox) (dir : nat) (side : Z)
    (d : option fab) : option fab :=
  ForEachIndex box_to_fill
    (fun dest => transfer (fun s => s) states dest (MapToSrc domain dest dir side)) d.

(** include/fub/AMReX/boundary_condition/ConstantBoundary.hpp:75-80: store a constant state in every cell
    of the box *)
Definition FillConstant (state : S) (states box_to_fill : IndexBox) (d : option fab) : option fab :=
  ForEachIndex box_to_fill
    (fun dest d => match d with
                   | None => None
                   | Some d => if ContainsIndex states dest then Some (put d dest state) else None
                   end) d.

(** amrex::Box: [shift], [&], [isEmpty] and [intersects] on half open boxes (used in
    include/fub/AMReX/boundary_condition/ReflectiveBoundary.hpp:80-87) *)
Definition shift_box (b : IndexBox) (dir : nat) (n : Z) : IndexBox :=
  mkBox (Shift (lower b) dir n) (Shift (upper b) dir n).
Definition meet (a b : IndexBox) : IndexBox :=
  mkBox (map2 Z.max (lower a) (lower b)) (map2 Z.min (upper a) (upper b)).
Definition isEmpty (b : IndexBox) : bool := existsb (fun p => snd p <=? fst p) (combine (lower b) (upper b)).
Definition intersects (a b : IndexBox) : bool := negb (isEmpty (meet a b)).

(** amrex::grow by [g] cells in every direction, MFIter::growntilebox (used in ReflectiveBoundary.hpp:85) *)
Definition grow_box (b : IndexBox) (g : Z) : IndexBox :=
  mkBox (map (fun k => k - g) (lower b)) (map (fun k => k + g) (upper b)).

(** amrex::Geometry::growNonPeriodicDomain (used in ReflectiveBoundary.hpp:71) *)
Definition growNonPeriodicDomain (domain : IndexBox) (periodic : list bool) (g : Z) : IndexBox :=
  mkBox (map2 (fun (p : bool) k => if p then k else k - g) periodic (lower domain))
        (map2 (fun (p : bool) k => if p then k else k + g) periodic (upper domain)).

(** include/fub/AMReX/boundary_condition/ReflectiveBoundary.hpp:76-93, the work for one patch with the
    (tile) box [tile]; [fill] is the implementation; the same loop is in TransmissiveBoundary.cpp:72-90
    and ConstantBoundary.hpp:67-82.  [boundaries] is the list of boxes AMReX's [complementIn] returns. *)
Definition FillPatch (fill : IndexBox -> IndexBox -> option fab -> option fab)
    (domain : IndexBox) (boundaries : list IndexBox) (dir : nat) (side ngrow : Z) (tile : IndexBox)
    (d : option fab) : option fab :=
  fold_left (fun d boundary =>
    if negb (intersects domain (shift_box boundary dir (GetSign side * ngrow))) then d
    else let box_to_fill := meet (grow_box tile ngrow) boundary in
         if negb (isEmpty box_to_fill) then fill (grow_box tile ngrow) box_to_fill d else d)
    boundaries d.

(** include/fub/AMReX/boundary_condition/ReflectiveBoundary.hpp:67-94 [FillBoundary] on one patch *)
Definition ReflectiveBoundary (f : S -> S) (domain : IndexBox) (boundaries : list IndexBox)
    (dir : nat) (side ngrow : Z) (tile : IndexBox) : option fab -> option fab :=
  FillPatch (fun states box => FillReflective f states box dir side) domain boundaries dir side ngrow tile.

(** src/AMReX/boundary_condition/TransmissiveBoundary.cpp:60-93 [FillBoundary] on one patch *)
Definition TransmissiveBoundary (is_periodic : bool) (domain : IndexBox) (boundaries : list IndexBox)
    (dir : nat) (side ngrow : Z) (tile : IndexBox) (d : option fab) : option fab :=
  if is_periodic then d else
  FillPatch (fun states box => FillTransmissive domain states box dir side) domain boundaries dir side
    ngrow tile d.

(** include/fub/AMReX/boundary_condition/ConstantBoundary.hpp:56-85 [FillBoundary] on one patch *)
Definition ConstantBoundary (state : S) (is_periodic : bool) (domain : IndexBox)
    (boundaries : list IndexBox) (dir : nat) (side ngrow : Z) (tile : IndexBox) (d : option fab) : option fab :=
  if is_periodic then d else
  FillPatch (fun states box => FillConstant state states box) domain boundaries dir side ngrow tile d.

(** src/AMReX/boundary_condition/BoundarySet.cpp:25-30 [FillBoundary]: the conditions one after the
    other *)
Definition BoundarySet (conditions : list (option fab -> option fab)) (d : option fab) : option fab :=
  fold_left (fun d condition => condition d) conditions d.

(** include/fub/boundary_condition/TransmissiveBoundary.hpp:44-75: the ghost cells of [fill_width] cells at
    the lower or upper end of the view's box *)
Definition FillTransmissiveView (box : IndexBox) (dir : nat) (fill_width side : Z)
    (d : option fab) : option fab :=
  let to_fill := if side =? 0
    then mkBox (lower box) (set_nth (upper box) dir (nthZ (lower box) dir + fill_width))
    else mkBox (set_nth (lower box) dir (nthZ (upper box) dir - fill_width)) (upper box) in
  ForEachIndex to_fill
    (fun dest => transfer (fun s => s) box dest (TransmissiveIndex box dest dir fill_width side)) d.
End Data.
