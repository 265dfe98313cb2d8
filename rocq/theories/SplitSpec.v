(** Observations on split steps: operators are wrapped such that each call is written to a log
    together with its outcome. *)
From Coq Require Import Reals List Arith.
From Verif Require Import SplitModel.
Import ListNotations.
Local Open Scope R_scope.

(** One observed call: which operator, for how long, with which outcome. *)
Record call := mkCall { who : nat; how_long : R; outcome : Result }.

(** Operator [f], observed under the name [i]. *)
Definition logged {W} (i : nat) (f : op W) : op (list call * W) :=
  fun dt '(l, w) => let '(w', r) := f dt w in ((l ++ [mkCall i dt r], w'), r).

(** All operators of a list, named 0, 1, 2, ... *)
Fixpoint logged_from {W} (i : nat) (fs : list (op W)) : list (op (list call * W)) :=
  match fs with
  | [] => []
  | f :: r => logged i f :: logged_from (S i) r
  end.

(** Total time spent in operator [i]. *)
Fixpoint time_in (i : nat) (l : list call) : R :=
  match l with
  | [] => 0
  | c :: r => (if Nat.eqb (who c) i then how_long c else 0) + time_in i r
  end.

(** Forget the outcomes. *)
Definition plan (l : list call) : list (nat * R) := map (fun c => (who c, how_long c)) l.

(** Re-execute the calls of a log one after the other, whatever their outcome. *)
Fixpoint replay {W} (fs : list (op W)) (l : list (nat * R)) (w : W) : W :=
  match l with
  | [] => w
  | (i, d) :: r =>
      match nth_error fs i with
      | Some f => replay fs r (fst (f d w))
      | None => w
      end
  end.

(** The symmetric methods. *)
Fixpoint is_symmetric (m : method) : bool :=
  match m with
  | Godunov => false
  | Strang | StrangLumped => true
  | AnySplit m' => is_symmetric m'
  end.

(** An operator which never fails and moves the state along an exact flow. *)
Definition flow_op {W} (phi : R -> W -> W) : op W := fun dt w => (phi dt w, None).

(** Exact flows: going forth and back for the same time restores the state, and two times add up. *)
Definition is_flow {W} (phi : R -> W -> W) : Prop :=
  (forall w, phi 0 w = w) /\ (forall s t w, phi (s + t) w = phi s (phi t w)).

(** All full flows one after the other. *)
Fixpoint compose_all {W} (phis : list (R -> W -> W)) (dt : R) (w : W) : W :=
  match phis with
  | [] => w
  | phi :: r => compose_all r dt (phi dt w)
  end.
