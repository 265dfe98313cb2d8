(** Specification vocabulary for geometries: plane geometry, polylines, crossing numbers. *)
From Coq Require Import List ZArith Reals.
Import ListNotations.
Local Open Scope R_scope.

(** Euclidean distance of two points of the plane and of space *)
Definition distance (p q : R * R) : R := sqrt ((fst p - fst q) ^ 2 + (snd p - snd q) ^ 2).
Definition distance3 (p q : R * R * R) : R :=
  let '(p0, p1, p2) := p in let '(q0, q1, q2) := q in sqrt ((p0 - q0) ^ 2 + (p1 - q1) ^ 2 + (p2 - q2) ^ 2).

(** [d] is the distance of [p] to the set [S]: it is attained and no point of [S] is nearer *)
Definition is_distance {X} (dist : X -> X -> R) (S : X -> Prop) (p : X) (d : R) : Prop :=
  (exists q, S q /\ dist p q = d) /\ (forall q, S q -> d <= dist p q).

(** The segment between two points *)
Definition on_segment (v w q : R * R) : Prop :=
  exists t, 0 <= t <= 1 /\ q = ((1 - t) * fst v + t * fst w, (1 - t) * snd v + t * snd w).

(** The edges of the polyline through the given vertices *)
Fixpoint edges {A} (vs : list A) : list (A * A) :=
  match vs with
  | v :: ((w :: _) as r) => (v, w) :: edges r
  | _ => []
  end.

(** The points of a polyline *)
Definition polyline (vs : list (R * R)) (q : R * R) : Prop := exists v w, In (v, w) (edges vs) /\ on_segment v w q.

(** A closed polygon: the last vertex repeats the first one *)
Definition closed (vs : list (R * R)) : Prop := exists v r, vs = v :: r ++ [v].

(** The edge crosses the horizontal ray which starts in p and goes to the left.  One end of the edge lies strictly
    below the ray, so that a vertex on the ray is not counted twice. *)
Definition crosses_ray (p : R * R) (e : (R * R) * (R * R)) : Prop :=
  let '(v, w) := e in
  (snd v < snd p <= snd w \/ snd w < snd p <= snd v) /\ exists q, on_segment v w q /\ snd q = snd p /\ fst q < fst p.

(** [n] elements of the list satisfy [P] *)
Inductive number_of {A} (P : A -> Prop) : list A -> nat -> Prop :=
| num_nil : number_of P [] 0
| num_yes a l n : P a -> number_of P l n -> number_of P (a :: l) (S n)
| num_no a l n : ~ P a -> number_of P l n -> number_of P (a :: l) n.

(** Two points joined by an axis-parallel segment which does not meet the set [S] *)
Definition joined (S : R * R -> Prop) (p q : R * R) : Prop :=
  (fst p = fst q \/ snd p = snd q) /\ forall z, on_segment p q z -> ~ S z.

(** Two points joined by a path of axis-parallel segments which does not meet the set [S] *)
Inductive connected (S : R * R -> Prop) : R * R -> R * R -> Prop :=
| c_refl p : connected S p p
| c_step p q r : joined S p q -> connected S q r -> connected S p r.

(** counterclockwise rotation by an angle around a point *)
Definition rotate (angle : R) (o p : R * R) : R * R :=
  (fst o + (cos angle * (fst p - fst o) - sin angle * (snd p - snd o)),
   snd o + (sin angle * (fst p - fst o) + cos angle * (snd p - snd o))).

(** the body of revolution of a plane set around the first axis *)
Definition revolved (S : R * R -> Prop) (q : R * R * R) : Prop :=
  let '(x, y, z) := q in S (x, sqrt (y ^ 2 + z ^ 2)).

(** [q] lies strictly on one side of all the vertices *)
Definition beyond (vs : list (R * R)) (q : R * R) : Prop :=
  (forall v, In v vs -> fst v < fst q) \/ (forall v, In v vs -> fst q < fst v) \/
  (forall v, In v vs -> snd v < snd q) \/ (forall v, In v vs -> snd q < snd v).
