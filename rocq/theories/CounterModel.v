(** Model of counters, timers and the counter registry.
    Sources: include/fub/counter/Counter.hpp, src/counter/Counter.cpp, src/counter/Timer.cpp,
    src/counter/CounterRegistry.cpp.
    [long long] is modelled by [Z] (no overflow), [double] by [R]. *)
From Coq Require Import String List ZArith Reals.
Import ListNotations.
Local Open Scope Z_scope.

(** ** Counter *)

(** Counter.hpp:56 the member [values_]; Counter.cpp:31 [add] appends at the end *)
Definition counter := list Z.

(** Counter.cpp:31 [add] *)
Definition add (c : counter) (value : Z) : counter := c ++ [value].

(** Counter.cpp:65 [reset] *)
Definition reset (c : counter) : counter := [].

(** Counter.cpp:35-37 [get_value]: std::accumulate from 0 *)
Definition get_value (c : counter) : Z := fold_left Z.add c 0.

(** Counter.cpp:39 [get_count] *)
Definition get_count (c : counter) : nat := length c.

(** [*std::min_element(begin, end)] for a non-empty range, used in Counter.cpp:45 and 99 *)
Definition min_element (x : Z) (l : list Z) : Z := fold_left (fun m y => if y <? m then y else m) l x.

(** [*std::max_element(begin, end)] for a non-empty range, used in Counter.cpp:52 and 100 *)
Definition max_element (x : Z) (l : list Z) : Z := fold_left (fun m y => if m <? y then y else m) l x.

(** Counter.cpp:41-46 [get_min] *)
Definition get_min (c : counter) : Z := match c with [] => 0 | x :: l => min_element x l end.

(** Counter.cpp:48-53 [get_max] *)
Definition get_max (c : counter) : Z := match c with [] => 0 | x :: l => max_element x l end.

(** Counter.hpp:64-71 [calculate_mean] for T = long long *)
Definition calculate_mean_ll (v : list Z) : R :=
  match v with
  | [] => 0
  | _ => IZR (fold_left Z.add v 0%Z) / INR (length v)
  end%R.

(** Counter.hpp:64-71 [calculate_mean] for T = double *)
Definition calculate_mean_d (v : list R) : R :=
  match v with
  | [] => 0
  | _ => fold_left Rplus v 0 / INR (length v)
  end%R.

(** Counter.hpp:77-79 std::inner_product(v, v) with std::plus and (x - mean) * (y - mean), started with 0.0 *)
Definition sq_sum (mean : R) (v : list R) : R :=
  fold_left (fun acc x => acc + (x - mean) * (x - mean))%R v 0%R.

(** Counter.hpp:73-83 [calculate_variance] for T = long long *)
Definition calculate_variance_ll (v : list Z) : R :=
  match v with
  | [] => 0
  | _ => sq_sum (calculate_mean_ll v) (map IZR v) / INR (length v)
  end%R.

(** Counter.hpp:73-83 [calculate_variance] for T = double *)
Definition calculate_variance_d (v : list R) : R :=
  match v with
  | [] => 0
  | _ => sq_sum (calculate_mean_d v) v / INR (length v)
  end%R.

(** Counter.cpp:55 [get_mean] *)
Definition get_mean (c : counter) : R := calculate_mean_ll c.
(** Counter.cpp:57-59 [get_variance] *)
Definition get_variance (c : counter) : R := calculate_variance_ll c.
(** Counter.cpp:61-63 [get_stddev] *)
Definition get_stddev (c : counter) : R := sqrt (get_variance c).

(** include/fub/counter/CounterResult.hpp [struct CounterResult] without the name *)
Record counter_result := mkResult {
  r_count : nat; r_min : Z; r_max : Z; r_mean : R; r_stddev : R; r_variance : R }.

(** Counter.cpp:67-115 [gather_statistics] as seen by the root process: [ranks] are the counters of all
    processes in the order of their ranks (MPI_Gather collects one value of each), [root] is the root's
    counter.  [None] for an empty communicator, which MPI does not have. *)
Definition gather_statistics (root : counter) (ranks : list counter) : option counter_result :=
  let received_means := map get_mean ranks in
  match map get_min ranks, map get_max ranks with
  | m :: mins, x :: maxs =>
      let global_variance := calculate_variance_d received_means in
      Some (mkResult (get_count root) (min_element m mins) (max_element x maxs)
              (calculate_mean_d received_means) (sqrt global_variance) global_variance)
  | _, _ => None
  end.

(** Calls which change a counter, Counter.cpp:31,65 *)
Inductive counter_call := Add (value : Z) | Reset.

(** A sequence of calls on a new counter, Counter.cpp:29 (a new counter has no values) *)
Definition run_calls (calls : list counter_call) : counter :=
  fold_left (fun c call => match call with Add v => add c v | Reset => reset c end) calls [].

(** ** Timers *)

(** Timer.hpp:47-49 members of a timer; the pointer to a counter of the registry is the counter's name, [None]
    is the null pointer.  Times are in nanoseconds of the steady clock. *)
Record timer := mkTimer { t_counter : option string; t_start : Z; t_stop : Z }.

(** Timer.hpp:35 [Timer() = default] *)
Definition default_timer : timer := mkTimer None 0 0.

(** The counters of the registry (CounterRegistry.hpp [database_]) and the timer objects which exist, each with
    an identity.  The registry's counters have stable addresses (std::unordered_map). *)
Record world := mkWorld { counters : list (string * counter); timers : list (nat * timer) }.

(** std::unordered_map::find, used in CounterRegistry.cpp:27 *)
Fixpoint lookup {K V} (eqb : K -> K -> bool) (k : K) (l : list (K * V)) : option V :=
  match l with [] => None | (k', v) :: r => if eqb k' k then Some v else lookup eqb k r end.

(** writing through a reference to a mapped value (Timer.cpp:65 [counter_->add]) or to a member of an object
    (Timer.cpp:29-43) *)
Fixpoint update {K V} (eqb : K -> K -> bool) (k : K) (v : V) (l : list (K * V)) : list (K * V) :=
  match l with [] => [] | (k', v') :: r => if eqb k' k then (k', v) :: r else (k', v') :: update eqb k v r end.

(** end of the life of an object, Timer.cpp:45-50 *)
Fixpoint delete {V} (k : nat) (l : list (nat * V)) : list (nat * V) :=
  match l with [] => [] | (k', v) :: r => if Nat.eqb k' k then r else (k', v) :: delete k r end.

(** CounterRegistry.cpp:26-29 [get]: [emplace] inserts an empty counter only if there is none *)
Definition registry_get (name : string) (db : list (string * counter)) : list (string * counter) :=
  match lookup String.eqb name db with Some _ => db | None => (name, []) :: db end.

(** What programs do with timers.  [now] is the time returned by the steady clock during the call. *)
Inductive event :=
| GetTimer (id : nat) (name : string) (now : Z)    (* registry.get_timer(name), CounterRegistry.cpp:31-34 *)
| DefaultTimer (id : nat)                           (* Timer.hpp:35 *)
| MoveConstruct (id : nat) (from : nat)             (* Timer.cpp:29-34 *)
| MoveAssign (id : nat) (from : nat)                (* Timer.cpp:36-43 *)
| Destroy (id : nat) (now : Z).                     (* Timer.cpp:45-50 *)

(** reading a timer object, Timer.hpp:47-49 *)
Definition get_timer (w : world) (id : nat) : option timer := lookup Nat.eqb id (timers w).

(** Timer.cpp:58-66 [submit] *)
Definition submit (t : timer) (db : list (string * counter)) : list (string * counter) :=
  match t_counter t with
  | Some name =>
      match lookup String.eqb name db with
      | Some c => update String.eqb name (add c (t_stop t - t_start t)) db
      | None => db
      end
  | None => db
  end.

(** One event; [None] if the program is not valid C++ (the object does not exist, or exists already). *)
Definition step (w : world) (e : event) : option world :=
  match e with
  | GetTimer id name now =>
      match get_timer w id with
      | Some _ => None
      | None => Some (mkWorld (registry_get name (counters w)) ((id, mkTimer (Some name) now 0) :: timers w))
      end
  | DefaultTimer id =>
      match get_timer w id with
      | Some _ => None
      | None => Some (mkWorld (counters w) ((id, default_timer) :: timers w))
      end
  | MoveConstruct id from =>
      match get_timer w id, get_timer w from with
      | None, Some t => Some (mkWorld (counters w) ((id, t) :: update Nat.eqb from default_timer (timers w)))
      | _, _ => None
      end
  | MoveAssign id from =>
      match get_timer w id, get_timer w from with
      | Some _, Some t =>
          (* std::exchange clears [other] first, then the member of *this is assigned *)
          Some (mkWorld (counters w) (update Nat.eqb id t (update Nat.eqb from default_timer (timers w))))
      | _, _ => None
      end
  | Destroy id now =>
      match get_timer w id with
      | None => None
      | Some t =>
          match t_counter t with
          | Some _ =>
              let t := mkTimer (t_counter t) (t_start t) now in            (* stop, Timer.cpp:56 *)
              Some (mkWorld (submit t (counters w)) (delete id (timers w)))
          | None => Some (mkWorld (counters w) (delete id (timers w)))
          end
      end
  end.

(** A history of the program, starting without counters and timers (CounterRegistry.hpp:36 default constructor) *)
Fixpoint run (w : world) (es : list event) : option world :=
  match es with
  | [] => Some w
  | e :: r => match step w e with Some w => run w r | None => None end
  end.

(** CounterRegistry.hpp:36 *)
Definition init : world := mkWorld [] [].
