(** Specification vocabulary for counters and timers. *)
From Coq Require Import String List ZArith Reals.
From Verif Require Import CounterModel.
Import ListNotations.
Local Open Scope Z_scope.

(** The arithmetic mean of a non-empty list. *)
Definition is_mean (l : list R) (m : R) : Prop := (INR (length l) * m = fold_right Rplus 0 l)%R.

(** The least element of a list. *)
Definition is_least (l : list Z) (m : Z) : Prop := In m l /\ forall x, In x l -> m <= x.
Definition is_greatest (l : list Z) (m : Z) : Prop := In m l /\ forall x, In x l -> x <= m.

(** The values added since the last reset, in order. *)
Fixpoint since_reset (calls : list counter_call) : list Z :=
  match calls with
  | [] => []
  | Add v :: r => if existsb (fun c => match c with Reset => true | _ => false end) r then since_reset r else v :: since_reset r
  | Reset :: r => since_reset r
  end.

(** The measurements recorded for a name. *)
Definition recorded (w : world) (name : string) : list Z :=
  match lookup String.eqb name (counters w) with Some c => c | None => [] end.

(** Number of timers which are running for a name. *)
Definition running_for (name : string) (t : timer) : bool :=
  match t_counter t with Some n => String.eqb n name | None => false end.
Definition running (w : world) (name : string) : nat :=
  length (filter (fun p => running_for name (snd p)) (timers w)).

(** Number of timers obtained from the registry for a name. *)
Definition started (es : list event) (name : string) : nat :=
  length (filter (fun e => match e with GetTimer _ n _ => String.eqb n name | _ => false end) es).

(** The event assigns to a timer which is running for the name, other than itself. *)
Definition overwrites (w : world) (e : event) (name : string) : bool :=
  match e with
  | MoveAssign id from =>
      negb (Nat.eqb id from) && match lookup Nat.eqb id (timers w) with Some t => running_for name t | None => false end
  | _ => false
  end.

(** Number of running timers which are overwritten during a history. *)
Fixpoint overwritten (w : world) (es : list event) (name : string) : nat :=
  match es with
  | [] => 0
  | e :: r => ((if overwrites w e name then 1 else 0) + match step w e with Some w' => overwritten w' r name | None => 0 end)%nat
  end.
