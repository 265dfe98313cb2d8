(** Vocabulary for C130-C133: what a boundary state is meant to be, written with density, velocity and pressure. *)
From Coq Require Import List Reals.
From Verif Require Import GasModel GasSpec RiemannSpec.
Import ListNotations.
Local Open Scope R_scope.

(** The velocity of a state, component by component. *)
Definition same_velocity (q r : Complete) : Prop :=
  length (momentum q) = length (momentum r) /\ forall k, speed q k = speed r k.

(** The square of the velocity. *)
Definition speed2 (q : Complete) : R := sum (map (fun m => (m / density q) * (m / density q)) (momentum q)).

(** The entropy p / rho^gamma. *)
Definition isentrope (g rho p : R) : R := p / Rpower rho g.

(** The enthalpy per mass of a perfect gas at rest with the same total energy: gamma / (gamma - 1) p / rho + u^2 / 2. *)
Definition total_enthalpy (g rho u2 p : R) : R := g / (g - 1) * (p / rho) + u2 / 2.

(** The pressure and the temperature of a gas which is brought to rest without losses. *)
Definition total_pressure (g rho u2 p : R) : R := p * Rpower (1 + (g - 1) / 2 * (u2 / (g * p / rho))) (g / (g - 1)).
Definition total_temperature (g Rs rho u2 p : R) : R := p / (rho * Rs) * (1 + (g - 1) / 2 * (u2 / (g * p / rho))).

(** A root finder for functions with different signs at the ends of an interval: the returned interval is a part of the given one, and
    the signs at its ends are different, too. *)
Definition bracketing (find : (R -> R) -> R -> R -> R * R) : Prop :=
  forall f a b, a < b -> f a * f b <= 0 ->
    a <= fst (find f a b) /\ fst (find f a b) <= snd (find f a b) /\ snd (find f a b) <= b /\
    f (fst (find f a b)) * f (snd (find f a b)) <= 0.

(** The interval is smaller by the factor [eps]. *)
Definition precise (eps : R) (find : (R -> R) -> R -> R -> R * R) : Prop :=
  bracketing find /\
  forall f a b, a < b -> f a * f b <= 0 -> snd (find f a b) - fst (find f a b) <= eps * (b - a).

(** The state q is what a gas in the state l becomes behind a single wave which moves to the left in the gas: there is a solution of the Riemann
    problem with the states l and q which has the value q from the contact on. *)
Definition behind_wave (g : gas) (d : nat) (l q : Complete) : Prop :=
  exists w, riemann_solution g d l q w /\ forall xi, speed q d <= xi -> w xi = q.

(** The mass fractions of two mixtures agree. *)
Definition same_fractions (rho1 : R) (s1 : list R) (rho2 : R) (s2 : list R) : Prop :=
  length s1 = length s2 /\ forall k, nth k s1 0 / rho1 = nth k s2 0 / rho2.
