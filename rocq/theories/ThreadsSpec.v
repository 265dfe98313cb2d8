(** Vocabulary for C147 and C148 (means and boxes are those of FeedbackSpec.v). *)
From Coq Require Import List ZArith Reals.
From Verif Require Import FeedbackModel FeedbackSpec ThreadsModel.
Import ListNotations.
Local Open Scope R_scope.

(** v is the smallest of e and the values in l. *)
Definition smallest (e : R) (l : list R) (v : R) : Prop := v <= e /\ (forall x, In x l -> v <= x) /\ (v = e \/ In v l).
(** Every tube has been advanced by its own source term, which succeeded. *)
Inductive all_advanced {T : Type} (dt : R) : list T -> list (source T) -> list T -> Prop :=
| adv_nil : all_advanced dt [] [] []
| adv_cons t s t' ts ss ts' : advance s t dt = (t', None) -> all_advanced dt ts ss ts' -> all_advanced dt (t :: ts) (s :: ss) (t' :: ts').
