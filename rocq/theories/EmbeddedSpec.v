(** Vocabulary for C98. *)
From Coq Require Import List Reals ZArith.
From Verif Require Import GasModel GasSpec RiemannSpec.
Import ListNotations.
Local Open Scope R_scope.

(** The inner product of two vectors. *)
Definition inner (a b : list R) : R := sum (map (fun '(x, y) => x * y) (combine a b)).

(** The component of the velocity along n. *)
Definition along (q : Complete) (n : list R) : R := inner (momentum q) n / density q.

(** A gas is decelerated (accelerated) by a wave which brings it to the pressure p: the change of the velocity across
    a shock or a centred rarefaction. *)
Definition wave_velocity (g : gas) (q : Complete) (p : R) : R :=
  if Rlt_dec (pressure q) p
  then (p - pressure q) * sqrt (2 / (density q * ((gamma g + 1) * p + (gamma g - 1) * pressure q)))
  else 2 * speed_of_sound q / (gamma g - 1) * (Rpower (p / pressure q) ((gamma g - 1) / (2 * gamma g)) - 1).

(** The density behind such a wave: Rankine-Hugoniot and constant entropy. *)
Definition wave_density (g : gas) (q : Complete) (p : R) : R :=
  if Rlt_dec (pressure q) p
  then density q * ((gamma g + 1) * p + (gamma g - 1) * pressure q) / ((gamma g - 1) * p + (gamma g + 1) * pressure q)
  else density q * Rpower (p / pressure q) (1 / gamma g).

(** The accuracy of the pressure iteration, a velocity. *)
Definition accuracy : R := / 10 ^ 7.

(** w is the state of the gas q at a wall with the unit normal n (pointing into the gas): nothing flows through the
    wall, the velocity along the wall is that of the gas, and a wave leads from q to w which stops the gas up to half
    of the accuracy. *)
Definition wall_state (g : gas) (q : Complete) (n : list R) (w : Complete) : Prop :=
  admissible g w /\ length (momentum w) = length n /\
  along w n = 0 /\
  (forall t, length t = length n -> inner n t = 0 -> along w t = along q t) /\
  density w = wave_density g q (pressure w) /\
  Rabs (along q n + wave_velocity g q (pressure w)) <= accuracy / 2.

(** Velocities which are not astronomically large (2^9998 is about 10^3009), and a gas which leaves the wall with less
    than the velocity c/gamma. *)
Definition moderate (g : gas) (q : Complete) (n : list R) : Prop :=
  let u := along q n in let c := speed_of_sound q in
  gamma g * u < c /\
  4 * - u * (1 + (gamma g + 1) / 2 * (- u / c)) <= accuracy * 4 ^ Z.to_nat 4999 /\
  4 * c / (gamma g - 1) <= accuracy * (1 - gamma g * u / c) * 4 ^ Z.to_nat 4999.
