(** Vocabulary for C149: directions, cutting planes and segments of a tube around a line through points. *)
From Coq Require Import List Reals.
From Verif Require Import TubeModel.
Import ListNotations.
Local Open Scope R_scope.

(** u is the vector of length one along v, or zero if v is. *)
Definition unit_of (v u : vec) : Prop := (vdot v v = 0 /\ u = mkVec 0 0 0) \/ (exists k, 0 < k /\ u = vscale k v /\ vdot u u = 1).
Definition up : vec := mkVec 0 1 0.
Definition down : vec := mkVec 0 (-1) 0.
(** Direction of the segment from point i to the next one *)
Definition direction (points : list vec) (i : nat) (h : vec) : Prop :=
  exists a b, nth_error points i = Some a /\ nth_error points (S i) = Some b /\ unit_of (vsub b a) h.
(** Normal of the cut at point i: up at the first point, down at the last one; at the second point between up and the
    segment behind it; at others between the adjacent segments. *)
Inductive cut (points : list vec) : nat -> vec -> Prop :=
| cut_first : cut points 0 up
| cut_last i : S (S i) = length points -> cut points (S i) down
| cut_second h n : (2 < length points)%nat -> direction points 1 h -> unit_of (vadd up h) n -> cut points 1 n
| cut_inner i g h n : (S (S (S i)) < length points)%nat -> direction points (S i) g -> direction points (S (S i)) h ->
    unit_of (vadd g h) n -> cut points (S (S i)) n.
Definition within (radius : R) (x y : vec) : Prop := sqrt (vdot (vsub x y) (vsub x y)) <= radius.
(** x is between the cuts of segment i and at most radius away from its axis, which extends beyond the end points. *)
Definition in_segment (points : list vec) (radius : R) (i : nat) (x : vec) : Prop :=
  exists a b h n m, nth_error points i = Some a /\ nth_error points (S i) = Some b /\ direction points i h /\
    cut points i n /\ cut points (S i) m /\ 0 <= vdot n (vsub x a) /\ vdot m (vsub x b) <= 0 /\
    exists t, within radius x (vadd a (vscale t h)).
