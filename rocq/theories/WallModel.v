(** Walls on a part of the boundary with embedded boundaries:
    include/fub/AMReX/cutcell/boundary_condition/ReflectiveBoundary2.hpp. *)
From Coq Require Import ZArith List Bool Reals.
From Verif Require Import ArrayModel BoundaryModel.
Import ListNotations.
Open Scope Z_scope.

Section Wall.
Context {S : Type}.
(** An access to the volume fractions; outside of their box [abox] it is undefined ([None]) *)
Definition is_open (alpha : index -> R) (abox : IndexBox) (i : index) : option bool :=
  if ContainsIndex abox i then Some (if Rlt_dec 0 (alpha i) then true else false) else None.
(** ReflectiveBoundary2.hpp:104-122, the body of the loop; the second volume fraction is only read if the first one is positive *)
Definition wall_cell (refl : S -> S) (zeros : S) (alpha : index -> R) (abox states box : IndexBox) (dir : nat) (side : Z)
    (dest : index) (d : option (@fab S)) : option fab :=
  let src := ReflectIndex dest box dir side in
  let store_zeros := match d with Some d => if ContainsIndex states dest then Some (put d dest zeros) else None | None => None end in
  match is_open alpha abox dest with
  | None => None
  | Some false => store_zeros
  | Some true =>
      match is_open alpha abox src with
      | None => None
      | Some true => transfer refl states dest src d
      | Some false => store_zeros
      end
  end.
(** ReflectiveBoundary2.hpp:92-125, the work for one patch with the tile box [tile] and [ngrow] ghost cells *)
Definition wall_patch (refl : S -> S) (zeros : S) (alpha : index -> R) (abox : IndexBox) (section : IndexBox) (dir : nat) (side ngrow : Z)
    (tile : IndexBox) (d : option fab) : option fab :=
  let box_to_fill := meet (grow_box tile ngrow) section in
  if isEmpty box_to_fill then d
  else ForEachIndex box_to_fill (wall_cell refl zeros alpha abox (grow_box tile ngrow) box_to_fill dir side) d.
(** ReflectiveBoundary2.hpp:75-83: FillBoundary for one direction *)
Definition wall_direction (refl : S -> S) (zeros : S) (alpha : index -> R) (abox : IndexBox) (section : IndexBox) (dir : nat) (side ngrow : Z)
    (tile : IndexBox) (requested : nat) (d : option fab) : option fab :=
  if Nat.eqb requested dir then wall_patch refl zeros alpha abox section dir side ngrow tile d else d.
End Wall.
