(** Vocabulary for C88 - C90: sums over species, mole and mass fractions, mixture quantities. *)
From Coq Require Import List Reals.
Import ListNotations.
Local Open Scope R_scope.

(** sum of a list *)
Fixpoint total (l : list R) : R := match l with [] => 0 | x :: r => x + total r end.

(** sums over species of products / quotients with the molar masses *)
Fixpoint weighted (a b : list R) : R := match a, b with x :: a', y :: b' => x * y + weighted a' b' | _, _ => 0 end.
Fixpoint divided (a b : list R) : R := match a, b with x :: a', y :: b' => x / y + divided a' b' | _, _ => 0 end.

Definition nonneg (l : list R) : Prop := forall x, In x l -> 0 <= x.
Definition all_pos (l : list R) : Prop := forall x, In x l -> 0 < x.

(** a composition: n entries, not negative, sum one *)
Definition composition (n : nat) (l : list R) : Prop := length l = n /\ nonneg l /\ total l = 1.

(** two lists have the same ratios *)
Definition proportional (a b : list R) : Prop := exists k, 0 < k /\ a = map (fun x => k * x) b.

(** [entry l i]: value of species number i *)
Definition entry (l : list R) (i : nat) : R := nth i l 0.

(** ** Chemistry *)

(** sum over the species 0, .., n - 1 *)
Definition over (n : nat) (f : nat -> R) : R := total (map f (seq 0 n)).

(** mass density and density of internal energy of a mixture with molar masses M, gas constant R0, species enthalpies h (per mass) at the
    temperature T and concentrations c: sum of c_i (M_i h_i - R0 T) *)
Definition mass_density (M c : list R) : R := over (length M) (fun i => entry c i * entry M i).
Definition energy_density (R0 : R) (M h : list R) (T : R) (c : list R) : R :=
  over (length M) (fun i => entry c i * (entry M i * entry h i - R0 * T)).
(** heat capacity at constant volume, per volume *)
Definition heat_density (R0 : R) (M cp c : list R) : R := over (length M) (fun i => entry c i * (entry M i * entry cp i - R0)).
