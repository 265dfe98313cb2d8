(** Vocabulary for C101. *)
From Coq Require Import List Reals ZArith.
From Verif Require Import MdLimiterModel MdLimiterSpec.
Import ListNotations.
Local Open Scope R_scope.

(** The centroid of the fluid in a cell *)
Definition centroid (geom : geometry) (dx : R * R) (i : Z * Z) : R * R := position i (volume_centroid geom i) dx.

(** In the fluid the values are those of a linear function at the centroids. *)
Definition linear_in_fluid (geom : geometry) (dx : R * R) (u : Z * Z -> R) (a : R) (g : R * R) : Prop :=
  forall j, 0 < volume_fraction geom j -> u j = a + fst g * fst (centroid geom dx j) + snd g * snd (centroid geom dx j).

(** The four faces of a cell: open fraction, direction, cell on the other side *)
Definition sides (face : nat -> Z * Z -> R) (i : Z * Z) : list (R * nat * (Z * Z)) :=
  let '(x, y) := i in
  [(face 0%nat (x, y), 0%nat, (x - 1, y)%Z); (face 0%nat (x + 1, y)%Z, 0%nat, (x + 1, y)%Z);
   (face 1%nat (x, y), 1%nat, (x, y - 1)%Z); (face 1%nat (x, y + 1)%Z, 1%nat, (x, y + 1)%Z)].

Definition is_open (s : R * nat * (Z * Z)) : Prop := 0 < fst (fst s).

(** Not all cells of l lie with i on one line. *)
Definition spread (geom : geometry) (dx : R * R) (i : Z * Z) (l : list (Z * Z)) : Prop :=
  exists j k, In j l /\ In k l /\
    (fst (centroid geom dx j) - fst (centroid geom dx i)) * (snd (centroid geom dx k) - snd (centroid geom dx i)) <>
    (snd (centroid geom dx j) - snd (centroid geom dx i)) * (fst (centroid geom dx k) - fst (centroid geom dx i)).

(** Of two faces one is not more closed than the other and leads to a cell with at least as much fluid. *)
Definition comparable (face : nat -> Z * Z -> R) (geom : geometry) (i : Z * Z) : Prop :=
  forall s t, In s (sides face i) -> In t (sides face i) ->
    (fst (fst s) <= fst (fst t) /\ volume_fraction geom (snd s) <= volume_fraction geom (snd t)) \/
    (fst (fst t) <= fst (fst s) /\ volume_fraction geom (snd t) <= volume_fraction geom (snd s)).

Definition all_regular (geom : geometry) (i : Z * Z) : Prop :=
  let '(x, y) := i in
  volume_fraction geom (x, y) = 1 /\ volume_fraction geom (x - 1, y)%Z = 1 /\ volume_fraction geom (x + 1, y)%Z = 1 /\
  volume_fraction geom (x, y - 1)%Z = 1 /\ volume_fraction geom (x, y + 1)%Z = 1.

(** At least three faces are open, to fluid cells which are not on a line with the cell. *)
Definition three_open (face : nat -> Z * Z -> R) (geom : geometry) (dx : R * R) (i : Z * Z) : Prop :=
  exists open, (3 <= length open)%nat /\ NoDup open /\ incl open (sides face i) /\
    (forall s, In s (sides face i) -> (In s open <-> is_open s)) /\
    (forall s, In s open -> 0 < volume_fraction geom (snd s)) /\ spread geom dx i (map snd open).

(** Exactly one vertical and one horizontal face are open; the two cells behind and the corner between them are fluid
    and not on a line with the cell. *)
Definition corner_open (face : nat -> Z * Z -> R) (geom : geometry) (dx : R * R) (i : Z * Z) : Prop :=
  exists s t, In s (sides face i) /\ In t (sides face i) /\ snd (fst s) = 0%nat /\ snd (fst t) = 1%nat /\
    (forall r, In r (sides face i) -> (is_open r <-> r = s \/ r = t)) /\
    let corner := (fst (snd s), snd (snd t)) in
    0 < volume_fraction geom (snd s) /\ 0 < volume_fraction geom (snd t) /\ 0 < volume_fraction geom corner /\
    spread geom dx i [snd s; snd t; corner].
