(** What a limited slope of two one-sided differences should be (Sweby's second order region). *)
From Coq Require Import Reals.
From Verif Require Import FluxSpec.
Local Open Scope R_scope.

Record limited (phi : R -> R -> R) : Prop := {
  lim_symmetric : forall a b, phi a b = phi b a;
  lim_extremum : forall a b, a * b <= 0 -> phi a b = 0;
  lim_rising : forall a b, 0 < a -> 0 < b -> 0 < phi a b <= 2 * Rmin a b;
  lim_falling : forall a b, a < 0 -> b < 0 -> 2 * Rmax a b <= phi a b < 0;
  lim_linear : forall a, phi a a = a;
  lim_mirror : forall a b, phi (- a) (- b) = - phi a b }.

(** Between two values, in whichever order. *)
Definition inside (a x b : R) : Prop := between (Rmin a b) x (Rmax a b).
