(** Specification vocabulary for simulation runs. *)
From Coq Require Import Reals List ZArith.
From Verif Require Import SplitModel RunModel.
Import ListNotations.
Local Open Scope R_scope.

(** A solver with one clock: all time (and cycle) queries agree, preparing a step does not change the time, and a
    successful step of size [dt] (with its post-processing) moves the clock by [dt]. *)
Definition clock_solver {St} (sv : Solver St) : Prop :=
  (forall s, grid_time sv s = solver_time sv s) /\
  (forall s, grid_cycles sv s = solver_cycles sv s) /\
  (forall s dt p s', (p = pre_advance sv s \/ p = snd (compute_stable_dt sv (pre_advance sv s))) ->
     advance_hierarchy sv dt p = (s', None) ->
     solver_time sv (post_advance sv dt s') = solver_time sv s + dt).

(** Output objects ask for a time in the future. *)
Definition future_output {Ou St} (out : Output Ou St) : Prop :=
  forall o t, t < next_output_time out o t.

(** [after] results from [before] by one successful call of AdvanceHierarchy(dt) on the prepared state. *)
Definition good_step {St} (sv : Solver St) (before : St) (dt : R) (after : St) : Prop :=
  exists prepared s,
    (prepared = pre_advance sv before \/ prepared = snd (compute_stable_dt sv (pre_advance sv before))) /\
    advance_hierarchy sv dt prepared = (s, None) /\ after = post_advance sv dt s.

(** A trace tells a story starting in [s] and ending in [s']: accepted steps move on by a good step,
    failed steps leave no trace, outputs show the current state. *)
Fixpoint story {Ou St} (sv : Solver St) (s : St) (tr : list (event Ou St)) (s' : St) : Prop :=
  match tr with
  | [] => s = s'
  | Accepted b _ dt a :: r => b = s /\ good_step sv s dt a /\ story sv a r s'
  | Failed b _ _ _ :: r => b = s /\ story sv s r s'
  | Outputted _ x :: r => x = s /\ story sv s r s'
  end.

(** Is this event a step attempt / a failure / an output? *)
Definition is_failed {Ou St} (e : event Ou St) : bool :=
  match e with Failed _ _ _ _ => true | _ => false end.
Definition is_output {Ou St} (e : event Ou St) : bool :=
  match e with Outputted _ _ => true | _ => false end.
Definition is_accepted {Ou St} (e : event Ou St) : bool :=
  match e with Accepted _ _ _ _ => true | _ => false end.

(** The time step size of the most recent failure which has not been followed by an accepted step. *)
Fixpoint pending_from {Ou St} (acc : option R) (tr : list (event Ou St)) : option R :=
  match tr with
  | [] => acc
  | Failed _ _ _ e :: r => pending_from (Some (err_dt e)) r
  | Accepted _ _ _ _ :: r => pending_from None r
  | Outputted _ _ :: r => pending_from acc r
  end.
Definition pending {Ou St} (tr : list (event Ou St)) : option R := pending_from None tr.

(** A step attempt: state before, requested output time, step size. *)
Definition is_attempt {Ou St} (x : event Ou St) (b : St) (nx dt : R) : Prop :=
  (exists a, x = Accepted b nx dt a) \/ (exists e, x = Failed b nx dt e).

(** Times of the states which were output, in order. *)
Fixpoint output_times {Ou St} (sv : Solver St) (tr : list (event Ou St)) : list R :=
  match tr with
  | [] => []
  | Outputted _ s :: r => solver_time sv s :: output_times sv r
  | _ :: r => output_times sv r
  end.

(** Strictly increasing lists of reals. *)
Fixpoint increasing (l : list R) : Prop :=
  match l with
  | [] => True
  | a :: r => (forall b, In b r -> a < b) /\ increasing r
  end.

(** A solver which is honest about failures: stable time steps are at least [delta]; when a step
    fails, the reported time step size is at least [delta] too, and retrying from the same state with
    any step not exceeding [k] times the reported size succeeds. *)
Definition honest_solver {St} (sv : Solver St) (k delta : R) : Prop :=
  (forall s, delta <= fst (compute_stable_dt sv s)) /\
  (forall s dt p s' e,
     (p = pre_advance sv s \/ p = snd (compute_stable_dt sv (pre_advance sv s))) ->
     advance_hierarchy sv dt p = (s', Some e) ->
     delta <= err_dt e /\
     forall dt', dt' <= k * err_dt e ->
       exists s'', advance_hierarchy sv dt' (pre_advance sv s) = (s'', None)).
