(** Vocabulary for C32. *)
From Coq Require Import List ZArith Reals.
From Verif Require Import ArrayModel ArraySpec FluxModel.
Import ListNotations.
Local Open Scope Z_scope.

(** Order of time steps. *)
Definition dt_le (a b : time_step) : Prop :=
  match a, b with
  | _, Infinite => True
  | Infinite, Finite _ => False
  | Finite x, Finite y => (x <= y)%R
  end.

(** The stencil of [size] cells in direction [dir] starting at [c] lies in the patch. *)
Definition stencil_in (box : IndexBox) (dir size : nat) (c : list Z) : Prop :=
  forall k, 0 <= k < Z.of_nat size -> in_box box (Shift c dir k).

(** The states of that stencil. *)
Definition cells_of {S} (states : list Z -> S) (dir size : nat) (c : list Z) : list S :=
  map (fun i => states (Shift c dir (Z.of_nat i))) (seq 0 size).
