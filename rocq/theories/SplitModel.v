(** Model of the operator splitting methods.

    Sources: include/fub/split_method/SplittingMethod.hpp, src/split_method/*.cpp,
    include/fub/TimeStepError.hpp.  Durations are exact reals. *)
From Coq Require Import Reals List Arith.
Import ListNotations.
Local Open Scope R_scope.

(** include/fub/TimeStepError.hpp:28-31 [struct TimeStepTooLarge { Duration dt; int level; }].
    Levels are modelled as [nat]. *)
Record TimeStepTooLarge := mkTooLarge { err_dt : R; err_level : nat }.

(** [Result<void, TimeStepTooLarge>] (include/fub/TimeStepError.hpp, boost outcome):
    [None] is success, [Some e] is failure with error [e]. *)
Definition Result := option TimeStepTooLarge.

(** include/fub/split_method/SplittingMethod.hpp:38
    [AdvanceFunction = function_ref<Result<void, TimeStepTooLarge>(Duration)>]: a call may
    change arbitrary program state [W] and either succeeds or fails.  [function_ref] refers to the
    caller's closure, so state captured by a mutable closure is part of [W]. *)
Definition op (W : Type) := R -> W -> W * Result.

(** The splitting methods of the library: src/split_method/GodunovSplitting.cpp,
    src/split_method/StrangSplitting.cpp, src/split_method/StrangSplittingLumped.cpp and the type
    erased wrapper include/fub/split_method/SplittingMethod.hpp:75-113 [AnySplitMethod]. *)
Inductive method :=
| Godunov
| Strang
| StrangLumped
| AnySplit (m : method).

Section Methods.
  Context {W : Type}.

  (** [if (!result) return result.as_failure();] used in all src/split_method/*.cpp *)
  Definition bind (a : W -> W * Result) (b : W -> W * Result) (w : W) : W * Result :=
    match a w with
    | (w', Some e) => (w', Some e)
    | (w', None) => b w'
    end.

  (** src/split_method/GodunovSplitting.cpp:25-34 *)
  Definition godunov2 (dt : R) (a1 a2 : op W) : W -> W * Result :=
    bind (a1 dt) (a2 dt).

  (** src/split_method/StrangSplitting.cpp:25-44 (two operators) *)
  Definition strang2 (dt : R) (a1 a2 : op W) : W -> W * Result :=
    bind (a1 (/ 2 * dt)) (bind (a2 (/ 2 * dt)) (bind (a2 (/ 2 * dt)) (a1 (/ 2 * dt)))).

  (** src/split_method/StrangSplitting.cpp:46-72 (three operators) *)
  Definition strang3 (dt : R) (a1 a2 a3 : op W) : W -> W * Result :=
    bind (a1 (/ 2 * dt)) (bind (a2 (/ 2 * dt)) (bind (a3 (/ 2 * dt))
      (bind (a3 (/ 2 * dt)) (bind (a2 (/ 2 * dt)) (a1 (/ 2 * dt)))))).

  (** src/split_method/StrangSplittingLumped.cpp:25-40 *)
  Definition lumped2 (dt : R) (a1 a2 : op W) : W -> W * Result :=
    bind (a1 (/ 2 * dt)) (bind (a2 dt) (a1 (/ 2 * dt))).

  (** Virtual dispatch of the two operator [Advance]
      (include/fub/split_method/SplittingMethod.hpp:62-65); [AnySplitMethod::Advance]
      (103-108) forwards to the wrapped method. *)
  Fixpoint advance2 (m : method) (dt : R) (a1 a2 : op W) : W -> W * Result :=
    match m with
    | Godunov => godunov2 dt a1 a2
    | Strang => strang2 dt a1 a2
    | StrangLumped => lumped2 dt a1 a2
    | AnySplit m' => advance2 m' dt a1 a2
    end.

  (** include/fub/split_method/SplittingMethod.hpp:47-60 [AdvanceRecursively].  The two operator
      overload is the base case; the singleton case of this definition is only reached as the inner
      call of [a1, a2] where the C++ code passes [a2] itself, which is the same function.
      An empty parameter pack does not exist in C++; it is a no-op here. *)
  Fixpoint advance_rec (m : method) (ops : list (op W)) (dt : R) : W -> W * Result :=
    match ops with
    | [] => fun w => (w, None)
    | [a] => a dt
    | a :: rest => advance2 m dt a (fun ts => advance_rec m rest ts)
    end.

  (** Virtual dispatch of the three operator [Advance]
      (include/fub/split_method/SplittingMethod.hpp:67-72): only [StrangSplitting] overrides it;
      [AnySplitMethod] does not forward it. *)
  Definition advance3 (m : method) (dt : R) (a1 a2 a3 : op W) : W -> W * Result :=
    match m with
    | Strang => strang3 dt a1 a2 a3
    | _ => advance_rec m [a1; a2; a3] dt
    end.

  (** The call [split.Advance(dt, ops...)] for one (SplittingMethod.hpp:42-45), two (62-65),
      three (67-72) operators and [split.AdvanceRecursively(dt, ops...)] (52-60) for more. *)
  Definition advance (m : method) (ops : list (op W)) (dt : R) : W -> W * Result :=
    match ops with
    | [a1; a2] => advance2 m dt a1 a2
    | [a1; a2; a3] => advance3 m dt a1 a2 a3
    | _ => advance_rec m ops dt
    end.
End Methods.

(** include/fub/split_method/SplittingMethod.hpp:115-126 [MakeSplitDirections<Rank>(cycle, subcycle)]
    for non-negative [cycle] and [subcycle.first]; directions are 0 .. Rank-1. *)
Definition make_split_directions (rank cycle subcycle_first : nat) : list nat :=
  let is_odd := ((cycle mod 2 + subcycle_first) mod 2)%nat in
  let is_even := (if Nat.eqb is_odd 0 then 1 else 0)%nat in
  map (fun i => (is_even * i + is_odd * (rank - 1 - i))%nat) (seq 0 rank).
