(** Vocabulary for C127 to C129. *)
From Coq Require Import Reals Arith.
From Verif Require Import PrimMusclModel.
Local Open Scope R_scope.

(** The harmonic mean. *)
Definition harmonic (a b : R) : R := 2 * (a * b) / (a + b).

(** Velocity in direction d turned around. *)
Definition turn (d : nat) (w : prim) : prim := mkPrim (rho w) (fun i => if Nat.eqb i d then - vel w i else vel w i) (pre w).

(** Two primitive states with the same density, pressure and first n velocities. *)
Definition same (n : nat) (v w : prim) : Prop := rho v = rho w /\ pre v = pre w /\ forall i, (i < n)%nat -> vel v i = vel w i.

(** The Euler equations in direction d in primitive variables at the state w with speed of sound a: the rates of change for the slopes
    g of density, velocity and pressure:
      rho_t = - (u rho_x + rho u_x),  v_t = - u v_x - p_x / rho (the last term for the velocity u only),  p_t = - (u p_x + rho a^2 u_x). *)
Definition rate (d : nat) (w : prim) (a : R) (g : prim) : prim :=
  mkPrim (- (vel w d * rho g + rho w * vel g d))
    (fun i => - (vel w d * vel g i) - (if Nat.eqb i d then pre g / rho w else 0))
    (- (vel w d * pre g + rho w * (a * a) * vel g d)).
(** The state at the distance x from the centre and the time t, up to first order. *)
Definition taylor (d : nat) (w : prim) (a : R) (g : prim) (x t : R) : prim :=
  let r := rate d w a g in
  mkPrim (rho w + x * rho g + t * rho r) (fun i => vel w i + x * vel g i + t * vel r i) (pre w + x * pre g + t * pre r).
(** Slopes from differences between neighbouring cells. *)
Definition per_length (dx : R) (w : prim) : prim := mkPrim (rho w / dx) (fun i => vel w i / dx) (pre w / dx).
