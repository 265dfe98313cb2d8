(** Vocabulary for C87, independent of the iteration: a mixture whose internal energy u has the heat capacity cv as its
    derivative, and what it means that a temperature answers the question "which temperature has the energy [target]?". *)
From Coq Require Import Reals.
Local Open Scope R_scope.

(** the internal energy at constant composition: its derivative is the heat capacity, which varies at most by a factor ten *)
Definition mixture_law (u cv : R -> R) (cmin cmax : R) : Prop :=
  0 < cmin /\ cmax <= 10 * cmin /\ (forall T, derivable_pt_lim u T (cv T)) /\ (forall T, cmin <= cv T <= cmax).

(** T is within ten tolerances of the solution, or its energy is right to 1e-5 tolerances, relative to the target (to the energy
    of one tolerance if the target is smaller than that) *)
Definition right_temperature (u : R -> R) (cmax target Ts dTtol T : R) : Prop :=
  Rabs (T - Ts) <= 10 * dTtol \/
  Rabs (u T - target) <= 1 / 100000 * dTtol * Rmax (Rabs target) (Rmax cmax (1 / 100000) * dTtol).
