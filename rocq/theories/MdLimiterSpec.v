(** Vocabulary for C99 and C100. *)
From Coq Require Import List Reals ZArith.
Import ListNotations.
Local Open Scope R_scope.

(** A constraint a1 x + a2 y >= b is ((a1, a2), b). *)
Definition holds (k : (R * R) * R) (x : R * R) : Prop :=
  let '((a1, a2), b) := k in let '(x1, x2) := x in b <= a1 * x1 + a2 * x2.

(** The constraint is satisfied with equality. *)
Definition tight (k : (R * R) * R) (x : R * R) : Prop :=
  let '((a1, a2), b) := k in let '(x1, x2) := x in a1 * x1 + a2 * x2 = b.

Definition feasible (ks : list ((R * R) * R)) (x : R * R) : Prop := forall k, In k ks -> holds k x.

Definition cost (c x : R * R) : R := let '(c1, c2) := c in let '(x1, x2) := x in c1 * x1 + c2 * x2.

(** x has the least cost of all feasible points. *)
Definition optimal (ks : list ((R * R) * R)) (c x : R * R) : Prop :=
  feasible ks x /\ forall z, feasible ks z -> cost c x <= cost c z.

(** The costs are not bounded below on the feasible points. *)
Definition unbounded (ks : list ((R * R) * R)) (c : R * R) : Prop :=
  forall K, exists z, feasible ks z /\ cost c z < K.

(** A starting vertex: the first two constraints are tight at x and independent. *)
Definition starting_vertex (ks : list ((R * R) * R)) (x : R * R) : Prop :=
  match ks with
  | (((a1, a2), _) as k1) :: (((b1, b2), _) as k2) :: _ => tight k1 x /\ tight k2 x /\ a1 * b2 <> a2 * b1
  | _ => False
  end.

(** y lies between a and b. *)
Definition between (a y b : R) : Prop := Rmin a b <= y <= Rmax a b.

(** The value at the point x of the linear function with the value v at the point y and the gradient g. *)
Definition linear_value (v : R) (y g x : R * R) : R := v + fst g * (fst x - fst y) + snd g * (snd x - snd y).

(** g has in each component the sign of h and is not larger. *)
Definition reduced (g h : R * R) : Prop :=
  exists l1 l2, 0 <= l1 <= 1 /\ 0 <= l2 <= 1 /\ g = (l1 * fst h, l2 * snd h).

Definition size (g : R * R) : R := Rabs (fst g) + Rabs (snd g).

(** The cells with the indices i and j share a face. *)
Definition share_face (i j : Z * Z) : Prop := (Z.abs (fst j - fst i) + Z.abs (snd j - snd i) = 1)%Z.

(** The absolute position of the centroid of the cell with the index i, whose centroid in units of the cell is c and
    measured from the middle of the cell. *)
Definition position (i : Z * Z) (c dx : R * R) : R * R :=
  ((IZR (fst i) + fst c + 1 / 2) * fst dx, (IZR (snd i) + snd c + 1 / 2) * snd dx).

(** The neighbour j of the cut cell i is behind the wall of i or not: b is the stored normal, which points out of the gas,
    w is the centroid of the wall, ci and cj are the centroids of the cells. *)
Definition in_front (i j : Z * Z) (b w ci cj : R * R) : Prop :=
  fst b * (IZR (fst j - fst i) + fst cj - fst ci) + snd b * (IZR (snd j - snd i) + snd cj - snd ci) <= fst b * fst w + snd b * snd w.
