(** Vocabulary for C95. *)
From Coq Require Import List ZArith Reals.
Local Open Scope R_scope.

(** sum of f over the cells 0 .. n-1 *)
Fixpoint total (f : Z -> R) (n : nat) : R := match n with O => 0 | S k => total f k + f (Z.of_nat k) end.

(** flux of a quantity with the values a and b on both sides of a face, conductivity k, size dx of the cells *)
Definition fick (k dx a b : R) : R := - k * ((b - a) / dx).

(** values between lo and hi *)
Definition within (lo hi x : R) : Prop := lo <= x <= hi.

(** How the values in a ghost cell g follow a boundary condition: they stay fixed, are copied from a cell j inside, or, for values bounded by
    -hi and hi, are copied with opposite sign (velocity at a wall).  x: before, y: at the half time step; n cells *)
Definition ghost_value (lo hi : R) (n : Z) (x y : Z -> R) (g : Z) : Prop :=
  (y g = x g /\ within lo hi (x g)) \/
  (exists j, (0 <= j < n)%Z /\ x g = x j /\ y g = y j) \/
  (lo = - hi /\ exists j, (0 <= j < n)%Z /\ x g = - x j /\ y g = - y j).
