(** Vocabulary for C75-C78: self-similar solutions of the Euler equations of a perfect gas. *)
From Coq Require Import List Reals.
From Verif Require Import GasModel GasSpec.
Import ListNotations.
Local Open Scope R_scope.

(** The conserved quantities: mass, the components of the momentum, energy. *)
Inductive conserved := Mass | Momentum (k : nat) | Energy.

(** The density of a conserved quantity. *)
Definition amount (c : conserved) (q : Complete) : R :=
  match c with Mass => density q | Momentum k => nth k (momentum q) 0 | Energy => energy q end.

(** The velocity in direction d. *)
Definition speed (q : Complete) (d : nat) : R := nth d (momentum q) 0 / density q.

(** The flux of a conserved quantity in direction d: rho u, rho u v_k + p (k = d), (E + p) u. *)
Definition transport (c : conserved) (q : Complete) (d : nat) : R :=
  match c with
  | Mass => density q * speed q d
  | Momentum k => nth k (momentum q) 0 * speed q d + (if Nat.eqb k d then pressure q else 0)
  | Energy => (energy q + pressure q) * speed q d
  end.

(** The component of a conserved quantity in a vector of conservative variables. *)
Definition component (c : conserved) (f : Cons) : R :=
  match c with Mass => c_density f | Momentum k => nth k (c_momentum f) 0 | Energy => c_energy f end.

(** The physical entropy per volume, rho ln (p / rho^gamma). *)
Definition entropy (g : gas) (q : Complete) : R :=
  density q * ln (pressure q / Rpower (density q) (gamma g)).

(** One sided limits of real functions. *)
Definition left_limit (f : R -> R) (x l : R) : Prop := limit1_in f (fun y => y < x) l x.
Definition right_limit (f : R -> R) (x l : R) : Prop := limit1_in f (fun y => x < y) l x.

(** w(x/t) satisfies the conservation laws q_t + f(q)_x = 0 at x/t = xi, where it is smooth: (f(w))' = xi w'. *)
Definition conserved_at (d : nat) (w : R -> Complete) (xi : R) : Prop :=
  forall c, exists dq df,
    derivable_pt_lim (fun x => amount c (w x)) xi dq /\
    derivable_pt_lim (fun x => transport c (w x) d) xi df /\
    df = xi * dq.

(** w has limits from both sides at xi, which satisfy the jump conditions [f(q)] = xi [q] of a discontinuity with the
    speed xi, and entropy is not destroyed. *)
Definition jump_at (g : gas) (d : nat) (w : R -> Complete) (xi : R) : Prop :=
  exists ql qr,
    admissible g ql /\ admissible g qr /\
    (forall c, left_limit (fun x => amount c (w x)) xi (amount c ql)) /\
    (forall c, right_limit (fun x => amount c (w x)) xi (amount c qr)) /\
    (forall c, transport c qr d - transport c ql d = xi * (amount c qr - amount c ql)) /\
    xi * (entropy g qr - entropy g ql) <= entropy g qr * speed qr d - entropy g ql * speed ql d /\
    (w xi = ql \/ w xi = qr).

(** w(x/t) is an entropy solution of the Riemann problem with the initial states l and r. *)
Definition riemann_solution (g : gas) (d : nat) (l r : Complete) (w : R -> Complete) : Prop :=
  (exists breaks,
     (forall xi, ~ In xi breaks -> conserved_at d w xi) /\
     (forall xi, In xi breaks -> jump_at g d w xi)) /\
  (exists a b, (forall xi, xi < a -> w xi = l) /\ (forall xi, b < xi -> w xi = r)) /\
  (forall xi, admissible g (w xi) /\ length (momentum (w xi)) = length (momentum l)).

(** The rarefactions starting at the two states would leave a vacuum between them. *)
Definition vacuum (g : gas) (d : nat) (l r : Complete) : Prop :=
  2 / (gamma g - 1) * (speed_of_sound l + speed_of_sound r) <= speed r d - speed l d.
