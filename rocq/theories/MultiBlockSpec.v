(** Vocabulary for the coupling of tubes and plena. *)
From Coq Require Import List Reals ZArith.
Import ListNotations.
Local Open Scope R_scope.

(** Length of the part which two intervals have in common *)
Definition overlap (a b c d : R) : R := Rmax 0 (Rmin b d - Rmax a c).

(** Cells of size h side by side, starting at the position k h; what lies between a and b *)
Fixpoint content (h : R) (k : nat) (values : list R) (a b : R) : R :=
  match values with
  | [] => 0
  | v :: l => overlap a b (INR k * h) (INR (S k) * h) * v + content h (S k) l a b
  end.

(** The mean of cells of size h (the first one starts at 0) over the interval from a to b *)
Definition mean (h : R) (values : list R) (a b : R) : R := content h 0 values a b / (b - a).

(** A state of [n] dimensions with positive density and positive internal energy; components: density, momentum, energy, species *)
Fixpoint square_sum (n : nat) (s : nat -> R) : R := match n with O => 0 | S n' => square_sum n' s + s (S n') * s (S n') end.
Definition admissible (n : nat) (s : nat -> R) : Prop := 0 < s 0%nat /\ square_sum n s < 2 * s 0%nat * s (S n).

(** Sum of a value over a list *)
Fixpoint add_up {A} (f : A -> R) (l : list A) : R := match l with [] => 0 | a :: l' => f a + add_up f l' end.
