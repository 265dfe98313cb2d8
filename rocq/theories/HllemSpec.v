(** Vocabulary for C36, C62 and C63. *)
From Coq Require Import List Reals.
From Verif Require Import GasModel GasSpec HllemModel.
Import ListNotations.
Local Open Scope R_scope.

(** The physical flux of the Euler equations in direction d for a state of density rho, velocity v, energy E,
    pressure p and partial densities Y. *)
Definition euler_flux (Msq : R) (q : mstate) (d : nat) : mflux :=
  let rho := m_rho q in
  let v i := nth i (m_mom q) 0 / rho in
  mkF (rho * v d)
      (map (fun i => rho * v d * v i + (if Nat.eqb i d then m_p q / Msq else 0)) (seq 0 (length (m_mom q))))
      (v d * (m_E q + m_p q))
      (map (fun y => v d * y) (m_Y q)).

(** Positive density, pressure, speed of sound; E = Msq 1/2 rho v^2 + p / (gamma - 1). *)
Definition mix_admissible (dim : nat) (Msq : R) (q : mstate) : Prop :=
  length (m_mom q) = dim /\ 0 < m_rho q /\ 0 < m_p q /\ 0 < m_a q /\ 1 < m_gamma q /\
  m_E q = Msq * kinetic (m_rho q) (map (fun m => m / m_rho q) (m_mom q)) + m_p q / (m_gamma q - 1).

(** Two states separated by a contact and shear wave at rest with respect to direction d: no normal
    velocity, the same pressure and gamma; density, tangential velocity and scalars may jump. *)
Definition resting_contact (d : nat) (l r : mstate) : Prop :=
  nth d (m_mom l) 0 = 0 /\ nth d (m_mom r) 0 = 0 /\ m_p l = m_p r /\ m_gamma l = m_gamma r /\
  length (m_Y l) = length (m_Y r).

(** The flux through such a wave: pressure only. *)
Definition pressure_flux (dim d : nat) (p : R) (n : nat) : mflux :=
  mkF 0 (map (fun i => if Nat.eqb i d then p else 0) (seq 0 dim)) 0 (repeat 0 n).

(** ** C68 *)

(** Roe average of a quantity x of two states. *)
Definition roe (l r : mstate) (x : mstate -> R) : R :=
  (sqrt (m_rho l) * x l + sqrt (m_rho r) * x r) / (sqrt (m_rho l) + sqrt (m_rho r)).
(** Enthalpy and velocity of a state; the sum of the squares of the averaged velocities. *)
Definition enthalpy (q : mstate) : R := (m_E q + m_p q) / m_rho q.
Definition speed (i : nat) (q : mstate) : R := nth i (m_mom q) 0 / m_rho q.
Definition roe_speed2 (l r : mstate) : R :=
  fold_right (fun i s => roe l r (speed i) * roe l r (speed i) + s) 0 (seq 0 (length (m_mom l))).
(** Speed of sound of the Roe average. *)
Definition roe_sound (Msq : R) (l r : mstate) : R :=
  sqrt ((roe l r m_gamma - 1) * (roe l r enthalpy - 1 / 2 * Msq * roe_speed2 l r)).
(** The slowest and the fastest signal of Einfeldt's estimate in direction d. *)
Definition slowest_signal (Msq : R) (d : nat) (l r : mstate) : R :=
  Rmin (speed d l - Rmax (m_a l) (m_a r) / sqrt Msq) (roe l r (speed d) - roe_sound Msq l r / sqrt Msq).
Definition fastest_signal (Msq : R) (d : nat) (l r : mstate) : R :=
  Rmax (roe l r (speed d) + roe_sound Msq l r / sqrt Msq) (speed d r + Rmax (m_a l) (m_a r) / sqrt Msq).
