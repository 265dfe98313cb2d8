(** Vocabulary for C92 - C94: gas dynamics of a perfect gas with the ratio g of specific heats, written with density, velocity and pressure only. *)
From Coq Require Import List Reals.
Import ListNotations.
Local Open Scope R_scope.

(** scalar product of vectors of any dimension *)
Fixpoint sprod (a b : list R) : R := match a, b with x :: a', y :: b' => x * y + sprod a' b' | _, _ => 0 end.
Definition unit_vector (n : list R) : Prop := sprod n n = 1.

(** energy per volume *)
Definition total_energy (g rho : R) (u : list R) (p : R) : R := p / (g - 1) + rho * sprod u u / 2.

(** Rankine-Hugoniot conditions for a discontinuity with normal n that moves with speed s: the fluxes of mass, of each component of the
    momentum and of the energy through the discontinuity are the same on both sides *)
Definition rankine_hugoniot (g : R) (n : list R) (s : R) (rho1 : R) (u1 : list R) (p1 rho2 : R) (u2 : list R) (p2 : R) : Prop :=
  let w1 := sprod u1 n - s in
  let w2 := sprod u2 n - s in
  rho1 * w1 = rho2 * w2 /\
  (forall i, (i < length n)%nat -> rho1 * w1 * nth i u1 0 + p1 * nth i n 0 = rho2 * w2 * nth i u2 0 + p2 * nth i n 0) /\
  w1 * total_energy g rho1 u1 p1 + p1 * sprod u1 n = w2 * total_energy g rho2 u2 p2 + p2 * sprod u2 n.

(** same entropy: p / rho^g *)
Definition same_entropy (g rho1 p1 rho2 p2 : R) : Prop := p1 / Rpower rho1 g = p2 / Rpower rho2 g.

(** specific enthalpy of the gas, and including the kinetic energy *)
Definition enthalpy (g rho p : R) : R := g / (g - 1) * (p / rho).
Definition stagnation_enthalpy (g rho : R) (u : list R) (p : R) : R := enthalpy g rho p + sprod u u / 2.

(** pressure after bringing the gas to rest without losses; Ma2 is the square of the Mach number *)
Definition mach_squared (g rho : R) (u : list R) (p : R) : R := sprod u u / (g * p / rho).
Definition stagnation_pressure (g rho : R) (u : list R) (p : R) : R :=
  p * Rpower (1 + (g - 1) / 2 * mach_squared g rho u p) (g / (g - 1)).
