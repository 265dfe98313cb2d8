(** Vocabulary for the reconstruction at the faces of a cell: flows which solve the linearised Euler equations. *)
From Coq Require Import Reals.
From Verif Require Import ReconstructModel.
Local Open Scope R_scope.

(** A flow: its primitive variables as functions of the time and of the position along one axis. *)
Record flow := mkFlow
  { f_density : R -> R -> R; f_velocity : nat -> R -> R -> R; f_pressure : R -> R -> R;
    f_species : nat -> R -> R -> R; f_scalars : nat -> R -> R -> R }.
Definition sample (f : flow) (t x : R) : prim :=
  mkPrim (f_density f t x) (fun d => f_velocity f d t x) (f_pressure f t x) (fun i => f_species f i t x) (fun i => f_scalars f i t x).

(** Partial derivatives *)
Definition ddt (f : R -> R -> R) (t x d : R) : Prop := derivable_pt_lim (fun s => f s x) t d.
Definition ddx (f : R -> R -> R) (t x d : R) : Prop := derivable_pt_lim (fun y => f t y) x d.

(** f is carried along with the velocity u. *)
Definition carried (u : R) (f : R -> R -> R) : Prop := forall t x, exists ft fx, ddt f t x ft /\ ddx f t x fx /\ ft + u * fx = 0.

(** The Euler equations in [n] dimensions for flows which vary along axis [ix] only, with the coefficients frozen at
    density [rho], velocity [u] along the axis and speed of sound [c].  [M2] is the square of the reference Mach
    number: the momentum equation has the pressure gradient divided by it (PerfectGasMix::Flux). *)
Definition linearised (n : nat) (M2 rho u c : R) (ix : nat) (f : flow) : Prop :=
  (forall t x, exists rt rx ut ux pt px,
     ddt (f_density f) t x rt /\ ddx (f_density f) t x rx /\ ddt (f_velocity f ix) t x ut /\ ddx (f_velocity f ix) t x ux /\
     ddt (f_pressure f) t x pt /\ ddx (f_pressure f) t x px /\
     rt + u * rx + rho * ux = 0 /\ ut + u * ux + px / (M2 * rho) = 0 /\ pt + u * px + rho * (c * c) * ux = 0) /\
  (forall d, (d < n)%nat -> d <> ix -> carried u (f_velocity f d)) /\
  (forall i, carried u (f_species f i)) /\ (forall i, carried u (f_scalars f i)).

(** Flows which are affine in time and position *)
Definition affine (f : R -> R -> R) : Prop := exists a b c, forall t x, f t x = a + b * x + c * t.
Definition affine_flow (f : flow) : Prop :=
  affine (f_density f) /\ (forall d, affine (f_velocity f d)) /\ affine (f_pressure f) /\ (forall i, affine (f_species f i)) /\
  (forall i, affine (f_scalars f i)).

(** Two complete states with the same observable values in [n] dimensions *)
Definition same_state (n : nat) (p q : complete) : Prop :=
  c_density p = c_density q /\ (forall d, (d < n)%nat -> c_momentum p d = c_momentum q d) /\ c_energy p = c_energy q /\
  (forall i, c_species p i = c_species q i) /\ (forall i, c_scalars p i = c_scalars q i) /\ c_pressure p = c_pressure q /\
  speed_of_sound p = speed_of_sound q.

(** The same gas seen in a mirror perpendicular to axis [ix] *)
Definition mirror (ix : nat) (q : complete) : complete :=
  mkComplete (c_density q) (fun d => if Nat.eqb d ix then - c_momentum q d else c_momentum q d) (c_energy q) (c_species q) (c_scalars q)
    (c_pressure q) (speed_of_sound q).

(** A state with positive density and pressure whose speed of sound is the one of the gas *)
Definition proper (g : gas) (q : complete) : Prop :=
  0 < c_density q /\ 0 < c_pressure q /\ 0 < speed_of_sound q /\ c_density q * (speed_of_sound q * speed_of_sound q) = gamma g * c_pressure q.
