(** Vocabulary for C91: solutions that a solver is supposed to follow. *)
From Coq Require Import List ZArith Reals.
Local Open Scope R_scope.

(** the solution operator of a differential equation: the state at time b of the solution that starts at time a with y *)
Definition flow := R -> R -> list R -> list R.
Definition is_flow (phi : flow) : Prop := (forall a y, phi a a y = y) /\ (forall a b c y, phi b c (phi a b y) = phi a c y).
(** the equation does not depend on time *)
Definition autonomous (phi : flow) : Prop := forall a b s y, phi (a + s) (b + s) y = phi a b y.

(** the meaning of the codes of radau_, RadauSolver.cpp:209-214 *)
Definition successful (idid : Z) : Prop := idid = 1%Z \/ idid = 2%Z.
