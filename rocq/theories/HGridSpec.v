(** Vocabulary for C102 to C107. *)
From Coq Require Import List Reals ZArith.
Import ListNotations.
Local Open Scope R_scope.

(** A linear function of the position *)
Definition affine (a : R) (g x : R * R) : R := a + fst g * fst x + snd g * snd x.

(** The point with the coordinate t in the direction d (0: x, otherwise y) and s in the other direction *)
Definition point (d : nat) (t s : R) : R * R := match d with O => (t, s) | _ => (s, t) end.
Definition coordinate (d : nat) (x : R * R) : R := match d with O => fst x | _ => snd x end.
Definition tangential (d : nat) (x : R * R) : R := match d with O => snd x | _ => fst x end.
Definition number (d : nat) (i : Z * Z) : Z := match d with O => fst i | _ => snd i end.
Definition tangential_number (d : nat) (i : Z * Z) : Z := match d with O => snd i | _ => fst i end.
(** The next cell, or face, in the direction d *)
Definition next (d : nat) (i : Z * Z) : Z * Z := match d with O => (fst i + 1, snd i)%Z | _ => (fst i, snd i + 1)%Z end.
Definition previous (d : nat) (i : Z * Z) : Z * Z := match d with O => (fst i - 1, snd i)%Z | _ => (fst i, snd i - 1)%Z end.

(** The mirror image of the point x at the wall through b with the unit normal n *)
Definition mirror (b n x : R * R) : R * R :=
  let l := (fst x - fst b) * fst n + (snd x - snd b) * snd n in (fst x - 2 * l * fst n, snd x - 2 * l * snd n).

(** The integral of f from a to b is v. *)
Definition integral (f : R -> R) (a b v : R) : Prop := exists P, (forall x, derivable_pt_lim P x (f x)) /\ P b - P a = v.

(** The middle of the part of length u of a face [0, 1] next to the end away from the solid *)
Definition middle (solid_below : bool) (u : R) : R := if solid_below then ((1 - u) + 1) / 2 else (0 + u) / 2.

(** The sum of f over the n cells from lo on *)
Fixpoint sum_cells (f : Z -> R) (lo : Z) (n : nat) : R :=
  match n with O => 0 | S m => f lo + sum_cells f (lo + 1) m end.
