(** Vocabulary for C26-C29, independent of the flux methods. *)
From Coq Require Import List ZArith Reals.
From Verif Require Import FluxModel.
Import ListNotations.
Local Open Scope R_scope.

(** [dt] does not exceed a fraction [c] of a computed time step. *)
Definition dt_at_most (c dt : R) (t : time_step) : Prop :=
  match t with Finite r => dt <= c * r | Infinite => True end.

(** Two states a jump of which moves with speed [s] and whose fluxes are [fa], [fb]: Rankine-Hugoniot. *)
Definition rankine_hugoniot (s fa fb qa qb : R) : Prop := fb - fa = s * (qb - qa).

(** Signal speeds [s] strictly enclose the velocities of both cells. *)
Definition enclose (s : R * R) (va vb : R) : Prop := fst s < va /\ fst s < vb /\ va < snd s /\ vb < snd s.

Definition between (lo x hi : R) : Prop := lo <= x <= hi.

Definition min3 (a b c : R) := Rmin (Rmin a b) c.
Definition max3 (a b c : R) := Rmax (Rmax a b) c.

(** Sum of |u(i+1) - u(i)| for a <= i < a + m. *)
Fixpoint variation (u : Z -> R) (a : Z) (m : nat) : R :=
  match m with
  | O => 0
  | S m' => Rabs (u (a + 1)%Z - u a) + variation u (a + 1)%Z m'
  end.

(** Total variation of the cells 0..n-1. *)
Definition total_variation (n : Z) (u : Z -> R) : R := variation u 0 (Z.to_nat (n - 1)).

(** Each time step is nonnegative and at most [c] times the stable time step of every stencil of the patch
    at the time it is taken; [stable l r] is the stable time step for neighbouring cells l, r, and cells
    outside the patch have the value of the nearest cell. *)
Definition nearest (n i : Z) : Z := Z.max 0 (Z.min (n - 1) i).
Fixpoint stable_steps {A} (step : (Z -> A) -> R -> (Z -> A)) (c : R) (stable : A -> A -> time_step) (n : Z)
    (dts : list R) (u : Z -> A) : Prop :=
  match dts with
  | [] => True
  | dt :: rest =>
      0 <= dt /\
      (forall i, (0 <= i <= n)%Z -> dt_at_most c dt (stable (u (nearest n (i - 1))) (u (nearest n i)))) /\
      stable_steps step c stable n rest (step u dt)
  end.
