(** Vocabulary for the properties of the multigrid kernels, without reference to how they compute. *)
From Coq Require Import List Reals ZArith Bool.
From Verif Require Import LowMachModel LowMachSpec MultigridModel.
Import ListNotations.
Local Open Scope R_scope.

(** One in a single node *)
Definition unit_at (i j : Z) : field := fun a b => if Z.eqb a i && Z.eqb b j then 1 else 0.
(** The diagonal of an operator: what a unit in a node does to this node *)
Definition diagonal (A : field -> field) (i j : Z) : R := A (unit_at i j) i j.
(** The equations of the nodes in a list: zero in masked nodes, [A sol = rhs] in the others *)
Definition solves (msk : mask) (A : field -> field) (rhs : field) (nodes : list (Z * Z)) (sol : field) : Prop :=
  forall i j, In (i, j) nodes -> if msk i j then sol i j = 0 else A sol i j = rhs i j.

(** The bilinear interpolation of a coarse array at a fine node *)
Definition bilinear (c : field) (i j : Z) : R :=
  (c (i / 2)%Z (j / 2)%Z + c ((i + 1) / 2)%Z (j / 2)%Z + c (i / 2)%Z ((j + 1) / 2)%Z + c ((i + 1) / 2)%Z ((j + 1) / 2)%Z) / 4.
(** Nothing is masked *)
Definition no_mask : mask := fun _ _ => false.

(** Reflection of an index at the walls of [lo, hi]: cells ([offset] 0) at the faces outside of [lo] and [hi], nodes ([offset] 1) at [lo] and [hi] themselves *)
Definition mirror (lo hi offset : Z) (wall_lo wall_hi : bool) (i : Z) : Z :=
  if wall_lo && Z.ltb i lo then (2 * lo - 1 + offset - i)%Z
  else if wall_hi && Z.ltb hi i then (2 * hi + 1 - offset - i)%Z
  else i.

(** The factor one for every wall on which a node lies *)
Definition wall_factor (s : R) (nddom : box) (wlo whi : bool -> bool) (i j : Z) : R :=
  (if wlo true && Z.eqb i (blo nddom true) then s else 1) * (if whi true && Z.eqb i (bhi nddom true) then s else 1) *
  (if wlo false && Z.eqb j (blo nddom false) then s else 1) * (if whi false && Z.eqb j (bhi nddom false) then s else 1).
