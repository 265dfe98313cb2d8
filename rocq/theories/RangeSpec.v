(** Vocabulary for C158: faces, cells and stencils. *)
From Coq Require Import ZArith.
Local Open Scope Z_scope.

(** A position is in a box *)
Definition inside (dim : nat) (b : nat -> Z * Z) (i : nat -> Z) : Prop := forall d, (d < dim)%nat -> fst (b d) <= i d <= snd (b d).
(** The position moved by k along an axis *)
Definition moved (i : nat -> Z) (dir : nat) (k : Z) : nat -> Z := fun d => if Nat.eqb d dir then i d + k else i d.
(** All cells of the stencil of the face i, which are i - w, ..., i + w - 1 along the axis, are in the box *)
Definition stencil_inside (dim : nat) (b : nat -> Z * Z) (w : Z) (dir : nat) (i : nat -> Z) : Prop := forall k, - w <= k <= w - 1 -> inside dim b (moved i dir k).
