(** Vocabulary for C160. *)
From Coq Require Import List Reals ZArith.
From Verif Require Import StartModel.
Local Open Scope R_scope.

(** The type of a patch fits the volume fractions of its cells: covered patches have covered cells only and regular ones none *)
Definition type_fits (t : fab_type) (alpha : pos -> R) (cells : list pos) : Prop :=
  (t = covered -> forall i, In i cells -> alpha i = 0) /\ (t = regular -> forall i, In i cells -> alpha i <> 0).
