(** Vocabulary for C83 and C84: tubes with a varying cross section. *)
From Coq Require Import List ZArith Reals.
Import ListNotations.
Local Open Scope R_scope.

(** The sum f lower + ... + f (lower + n - 1). *)
Fixpoint sum_from (lower : Z) (n : nat) (f : Z -> R) : R :=
  match n with
  | O => 0
  | S n' => f lower + sum_from (lower + 1) n' f
  end.

(** The volume of a cell between two faces with the given areas: a truncated cone of constant slope. *)
Definition volume (area : Z -> R) (dx : R) (c : Z) : R := dx * ((area c + area (c + 1)%Z) / 2).

(** Entropy of a perfect gas is constant: p / rho^gamma. *)
Definition adiabatic (gamma rho p rho' p' : R) : Prop := p' / Rpower rho' gamma = p / Rpower rho gamma.

(** The quantity y(t) follows dy/dt = rate * y at every time. *)
Definition decays (rate : R) (y : R -> R) : Prop := forall t, derivable_pt_lim y t (rate * y t).

(** The cross section of a round tube. *)
Definition round_area (diameter : R -> R) (x : R) : R := PI / 4 * (diameter x * diameter x).
