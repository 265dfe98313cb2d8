(** Vocabulary for C38. *)
From Coq Require Import Reals.
From Verif Require Import NewtonModel.
Local Open Scope R_scope.

(** x is an approximate root: the function value is a number of size at most tol. *)
Definition solves (f : R -> dbl) (tol x : R) : Prop := exists v, f x = Fin v /\ - tol <= v <= tol.
