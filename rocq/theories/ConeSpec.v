(** Vocabulary for C152: the solid cone, its interior and distances. *)
From Coq Require Import Reals.
From Verif Require Import TubeModel.
Local Open Scope R_scope.

Definition dist (p q : vec) : R := sqrt ((vx p - vx q) * (vx p - vx q) + (vy p - vy q) * (vy p - vy q) + (vz p - vz q) * (vz p - vz q)).
(** Position along the axis and distance from the axis *)
Definition along (b p : vec) : R := vx p - vx b.
Definition off_axis (b p : vec) : R := sqrt ((vy p - vy b) * (vy p - vy b) + (vz p - vz b) * (vz p - vz b)).
(** The solid cone with base centre b, radius R0 and height H: the radius falls linearly from R0 to 0 *)
Definition in_cone (b : vec) (R0 H : R) (p : vec) : Prop := 0 <= along b p /\ H * off_axis b p <= R0 * (H - along b p).
Definition in_interior (b : vec) (R0 H : R) (p : vec) : Prop := 0 < along b p /\ H * off_axis b p < R0 * (H - along b p).
(** d is the distance from p to the set A *)
Definition distance_to (A : vec -> Prop) (p : vec) (d : R) : Prop := (forall q, A q -> d <= dist p q) /\ (exists q, A q /\ dist p q = d).
