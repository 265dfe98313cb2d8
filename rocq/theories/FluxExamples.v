(** Concrete data for C26-C29; not code of /repo. *)
From Coq Require Import List ZArith Reals Lra Lia.
From Verif Require Import FluxModel FluxSpec FluxProofs.
Import ListNotations.
Local Open Scope R_scope.

(** Linear acoustics-like system: two components, flux (q1, 4 q0), speeds -2 and 2. *)
Definition fx_flux (q : bool -> R) (k : bool) : R := if k then 4 * q false else q true.
Definition fx_speeds (l r : bool -> R) : R * R := (-2, 2).
Definition fx_left (k : bool) : R := if k then 1 else 3.
Definition fx_right (k : bool) : R := if k then -1 else 1.

(** Water: heights 1 and 2, momenta 1 and -1. *)
Definition fx_water (i : Z) (k : sw_component) : R :=
  match k with Height => if (i =? 0)%Z then 1 else 2 | MomentumX => if (i =? 0)%Z then 1 else -1 | MomentumY => 0 end.

(** A transonic rarefaction followed by a shock. *)
Definition fx_burgers (i : Z) : R := if (i =? 0)%Z then -1 else if (i =? 1)%Z then 1 else 0.
