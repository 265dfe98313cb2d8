(** Vocabulary for C85 and C86. *)
From Coq Require Import List Reals Bool Arith.
Import ListNotations.
Local Open Scope R_scope.

(** The number of ignitions on a level among the calls (level, time, ratio) with their outcomes. *)
Fixpoint ignitions (level : nat) (calls : list (nat * R * R)) (fired : list bool) : nat :=
  match calls, fired with
  | (l, _, _) :: calls', f :: fired' => (if (Nat.eqb l level && f)%bool then 1 else 0) + ignitions level calls' fired'
  | _, _ => 0
  end%nat.

(** A temperature profile with its peak at x0, falling off linearly to [low] at the distance [width]. *)
Definition ramp (low high x0 width x : R) : R := high - (high - low) * (Rabs (x - x0) / width).
