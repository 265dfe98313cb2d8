(** Vocabulary for the properties of the solver for nearly incompressible flow, without reference to how it computes. *)
From Coq Require Import List Reals ZArith Permutation.
From Verif Require Import SplitModel LowMachModel.
Import ListNotations.
Local Open Scope R_scope.

(** Repeating itself after [n] cells in the first and [m] cells in the second direction *)
Definition periodic (n m : nat) (q : field) : Prop :=
  forall i j, q (i + Z.of_nat n)%Z j = q i j /\ q i (j + Z.of_nat m)%Z = q i j.
Definition level_periodic (n m : nat) (l : level) : Prop :=
  periodic n m (l_density l) /\ periodic n m (l_momentum0 l) /\ periodic n m (l_momentum1 l) /\ periodic n m (l_PTdensity l) /\ periodic n m (l_PTinverse l).
Definition op_periodic (n m : nat) (o : linop) : Prop :=
  periodic n m (sigma o) /\ periodic n m (sigc0 o) /\ periodic n m (sigc1 o) /\ periodic n m (alpha o).

(** The sum over one period *)
Fixpoint sum1 (n : nat) (g : Z -> R) : R := match n with O => 0 | S k => sum1 k g + g (Z.of_nat k) end.
Definition total (n m : nat) (q : field) : R := sum1 n (fun i => sum1 m (fun j => q i j)).

(** The divergence at the lower corner of the cell (i, j): differences of the means over the two cells on either side of the node *)
Definition node_div (h : bool -> R) (u v : field) (i j : Z) : R :=
  ((u i j + u i (j - 1)%Z) / 2 - (u (i - 1)%Z j + u (i - 1)%Z (j - 1)%Z) / 2) / h true
  + ((v i j + v (i - 1)%Z j) / 2 - (v i (j - 1)%Z + v (i - 1)%Z (j - 1)%Z) / 2) / h false.

(** The gradient in the middle of the cell (i, j): differences of the means over the two corners on either side *)
Definition cell_grad (h : bool -> R) (p : field) (x : bool) (i j : Z) : R :=
  if x then ((p (i + 1)%Z j + p (i + 1)%Z (j + 1)%Z) / 2 - (p i j + p i (j + 1)%Z) / 2) / h true
  else ((p i (j + 1)%Z + p (i + 1)%Z (j + 1)%Z) / 2 - (p i j + p (i + 1)%Z j) / 2) / h false.

(** The mean over the four cells around a node *)
Definition node_mean (q : field) (i j : Z) : R := (q i j + q (i - 1)%Z j + q i (j - 1)%Z + q (i - 1)%Z (j - 1)%Z) / 4.

(** Density and PTdensity are positive; PTinverse is their quotient *)
Definition admissible (l : level) : Prop :=
  forall i j, 0 < l_density l i j /\ 0 < l_PTdensity l i j /\ l_PTinverse l i j = l_density l i j / l_PTdensity l i j.

(** PTdensity times velocity *)
Definition P_velocity (l : level) (x : bool) : field := fun i j =>
  l_PTdensity l i j * ((if x then l_momentum0 l i j else l_momentum1 l i j) / l_density l i j).

(** Twice the kinetic energy of all cells *)
Definition kinetic2 (n m : nat) (l : level) : R :=
  total n m (fun i j => (l_momentum0 l i j * l_momentum0 l i j + l_momentum1 l i j * l_momentum1 l i j) / l_density l i j).

(** The linear solver keeps the period and its residual is at most [eps] in every node *)
Definition accurate (n m : nat) (dx : bool -> R) (eps : R) (solve : solver) : Prop :=
  forall o rhs pi, op_periodic n m o -> periodic n m rhs -> solve o rhs = Some pi ->
    periodic n m pi /\ forall i j, Rabs (adotx o dx pi i j - rhs i j) <= eps.

(** Everywhere the same quotient of density and PTdensity and the same velocity *)
Definition mixed (c u v : R) (l : level) : Prop :=
  forall i j, l_PTinverse l i j = c /\ l_density l i j = c * l_PTdensity l i j /\
    l_momentum0 l i j = u * l_density l i j /\ l_momentum1 l i j = v * l_density l i j.

(** Everywhere the same values *)
Definition uniform (rho m0 m1 P : R) (l : level) : Prop :=
  forall i j, l_density l i j = rho /\ l_momentum0 l i j = m0 /\ l_momentum1 l i j = m1 /\ l_PTdensity l i j = P /\ l_PTinverse l i j = rho / P.

(** Every iteration reads before it writes and no other access is between them *)
Fixpoint one_after_the_other (order : list nat) : list access :=
  match order with [] => [] | k :: r => Read k :: Write k :: one_after_the_other r end.

(** All iterations of [order] read once and write once, each of them first reads *)
Definition complete_schedule (order : list nat) (s : list access) : Prop :=
  Permutation s (one_after_the_other order) /\
  forall k, In k order -> exists a b c, s = a ++ Read k :: b ++ Write k :: c.
