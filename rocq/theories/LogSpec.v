(** Vocabulary for C155. *)
From Coq Require Import List Arith Permutation Sorting.Sorted.
From Verif Require Import LogModel.
Import ListNotations.

(** The lines of a text *)
Fixpoint lines (t : bytes) : list bytes :=
  match t with
  | [] => [[]]
  | c :: t' => if Nat.eq_dec c newline then [] :: lines t' else match lines t' with l :: ls => (c :: l) :: ls | [] => [[c]] end
  end.
(** What is known about std::sort: the same strings, and no string is less than one before it *)
Definition sorts (sort : list bytes -> list bytes) : Prop :=
  forall l, Permutation l (sort l) /\ forall i j, i < j < length (sort l) -> str_less (nth j (sort l) []) (nth i (sort l) []) = false.
(** Names that old log files may get *)
Definition numbered (dec : nat -> bytes) (name : bytes) (i : nat) : bytes := name ++ [46] ++ dec i.
