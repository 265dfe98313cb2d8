(** Vocabulary for C33-C37. *)
From Coq Require Import List Reals.
From Verif Require Import GasModel.
Import ListNotations.
Local Open Scope R_scope.

Fixpoint sum (l : list R) : R := match l with [] => 0 | x :: r => x + sum r end.

(** The kinetic energy 1/2 rho |v|^2 of a velocity field. *)
Definition kinetic (rho : R) (v : list R) : R := / 2 * rho * sum (map (fun x => x * x) v).

(** The constants belong to a perfect gas. *)
Definition perfect (g : gas) : Prop := gamma g > 1 /\ (gamma_minus_1_inv g) * (gamma g - 1) = 1.

(** A complete state belongs together: E = 1/2 rho v^2 + p / (gamma - 1), c >= 0 and rho c^2 = gamma p. *)
Definition consistent (g : gas) (q : Complete) : Prop :=
  energy q = kinetic (density q) (map (fun m => m / density q) (momentum q)) + pressure q / (gamma g - 1) /\
  0 <= speed_of_sound q /\
  density q * (speed_of_sound q * speed_of_sound q) = gamma g * pressure q.

(** Positive density and pressure. *)
Definition admissible (g : gas) (q : Complete) : Prop :=
  0 < density q /\ 0 < pressure q /\ consistent g q.

(** A square matrix is orthogonal and has determinant 1. *)
Definition mul_rows (m : list (list R)) (n : list (list R)) : list (list R) :=
  (* m times the transpose of n *) map (fun r => map (fun s => dot r s) n) m.
Definition identity2 : list (list R) := [[1; 0]; [0; 1]].
Definition identity3 : list (list R) := [[1; 0; 0]; [0; 1; 0]; [0; 0; 1]].
Definition det2 (m : mat2) : R := let '(a, b, (c, d)) := m in a * d - b * c.
Definition det3 (m : mat3) : R :=
  let '(a, b, c, (d, e, f), (g, h, i)) := m in
  a * (e * i - f * h) - b * (d * i - f * g) + c * (d * h - e * g).
Definition list2 (a : vec2) : list R := let '(x, y) := a in [x; y].
Definition list3 (a : vec3) : list R := let '(x, y, z) := a in [x; y; z].
Definition unit (v : list R) : Prop := sum (map (fun x => x * x) v) = 1.
