(** Vocabulary for the third order Runge-Kutta method. *)
From Coq Require Import Reals ZArith.
Local Open Scope R_scope.

(** The strong stability preserving Runge-Kutta method of third order for u' = L u (Shu and Osher) *)
Section Shu_Osher.
Variables (V : Type) (plus : V -> V -> V) (times : R -> V -> V) (L : V -> V) (dt : R).
Definition euler (u : V) : V := plus u (times dt (L u)).
Definition first_stage (u : V) : V := euler u.
Definition second_stage (u : V) : V := plus (times (3 / 4) u) (times (1 / 4) (euler (first_stage u))).
Definition third_stage (u : V) : V := plus (times (1 / 3) u) (times (2 / 3) (euler (second_stage u))).
End Shu_Osher.

(** Linear advection with speed [a] on cells of size dx; w1, w2: weights of the near and the far cells in the value at a face *)
Definition advected (w1 w2 a dx : R) (r : Z -> R) : Z -> R :=
  let edge i := w1 * (r (i - 1)%Z + r i) - w2 * (r (i - 2)%Z + r (i + 1)%Z) in
  fun i => a * (edge i - edge (i + 1)%Z) / dx.
