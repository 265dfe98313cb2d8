(** Model of fub::RunSimulation, include/fub/RunSimulation.hpp. *)
From Coq Require Import Reals List ZArith Lra.
From Verif Require Import SplitModel.
Import ListNotations.
Local Open Scope R_scope.

(** include/fub/RunSimulation.hpp:47-67 [struct RunOptions].  Durations are reals. *)
Record RunOptions := mkRunOptions {
  final_time : R;
  max_cycles : Z;
  smallest_time_step_size : R;
  cfl : R;
  do_backup : bool }.

(** The operations RunSimulation uses of its template parameter [Solver]
    (include/fub/RunSimulation.hpp:85-190).  [St] is the complete (deeply copyable) solver state
    including the grid.  [grid_*] are queries through [GetGriddingAlgorithm()], [solver_*] through the
    solver itself.  [advance] may leave an arbitrary state behind when it fails. *)
Record Solver (St : Type) := mkSolver {
  grid_time : St -> R;
  grid_cycles : St -> Z;
  solver_time : St -> R;
  solver_cycles : St -> Z;
  pre_advance : St -> St;
  compute_stable_dt : St -> R * St;
  advance_hierarchy : R -> St -> St * Result;
  post_advance : R -> St -> St }.
Arguments grid_time {St}. Arguments grid_cycles {St}. Arguments solver_time {St}.
Arguments solver_cycles {St}. Arguments pre_advance {St}. Arguments compute_stable_dt {St}.
Arguments advance_hierarchy {St}. Arguments post_advance {St}.

(** include/fub/output/BasicOutput.hpp:31-45 [BasicOutput<Grid>].  Simplification: the two queries do
    not modify the output object ([Ou] is its state), only [operator()] does. *)
Record Output (Ou St : Type) := mkOutput {
  next_output_time : Ou -> R -> R;
  shall_output_now : Ou -> St -> bool;
  do_output : Ou -> St -> Ou }.
Arguments next_output_time {Ou St}. Arguments shall_output_now {Ou St}. Arguments do_output {Ou St}.

(** Observable events of a run. [Accepted] and [Failed] carry the solver state before the attempt,
    the attempted step size and the output time requested for it. *)
Inductive event (Ou St : Type) :=
| Accepted (before : St) (next_out dt : R) (after : St)
| Failed (before : St) (next_out dt : R) (e : TimeStepTooLarge)
| Outputted (o : Ou) (s : St).
Arguments Accepted {Ou St}. Arguments Failed {Ou St}. Arguments Outputted {Ou St}.

(** Local variables of RunSimulation (lines 90-108) plus the trace of events (oldest first). *)
Record config (Ou St : Type) := mkConfig {
  c_solver : St;
  c_output : Ou;
  c_time : R;
  c_backup : option St;
  c_failure : option R;
  c_trace : list (event Ou St) }.
Arguments mkConfig {Ou St}. Arguments c_solver {Ou St}. Arguments c_output {Ou St}.
Arguments c_time {Ou St}. Arguments c_backup {Ou St}. Arguments c_failure {Ou St}.
Arguments c_trace {Ou St}.

(** Control state: at the head of the [while] loop (109) or of the [do] loop (112), after the end,
    after the [return] without backup (158), after a failed FUB_ASSERT (128, active in debug builds)
    or after dereferencing an empty optional (151, undefined behaviour). *)
Inductive status := AtWhile | AtDo | Finished | Returned | AssertFailed | UndefinedBehaviour.

Section Run.
  Context {Ou St : Type}.
  Variable solver : Solver St.
  Variable output : Output Ou St.
  Variable opts : RunOptions.

  (** std::min({a, b, c}) of include/fub/RunSimulation.hpp:129-131 *)
  Definition min3 (a b c : R) : R := Rmin (Rmin a b) c.

  (** Condition of the outer loop, lines 109-110. *)
  Definition while_cond (c : config Ou St) : bool :=
    (if Rlt_dec (c_time c + smallest_time_step_size opts) (final_time opts) then true else false) &&
    ((max_cycles opts <? 0)%Z || (grid_cycles solver (c_solver c) <? max_cycles opts)%Z).

  (** Condition of the inner loop, lines 183-186. *)
  Definition do_cond (c : config Ou St) : bool :=
    (if Rlt_dec (c_time c + smallest_time_step_size opts) (final_time opts) then true else false) &&
    ((max_cycles opts <? 0)%Z || (solver_cycles solver (c_solver c) <? max_cycles opts)%Z) &&
    negb (shall_output_now output (c_output c) (c_solver c)).

  (** Body of the inner loop, lines 112-182. *)
  Definition do_body (c : config Ou St) : config Ou St * status :=
    let next := next_output_time output (c_output c) (c_time c) in
    let s1 := pre_advance solver (c_solver c) in
    let '(stable_dt, s2) :=
      match c_failure c with
      | Some d => (d, s1)
      | None => compute_stable_dt solver s1
      end in
    if Rlt_dec (smallest_time_step_size opts) stable_dt then
      let limited_dt := min3 (final_time opts - c_time c) (next - c_time c) (cfl opts * stable_dt) in
      let '(s3, result) := advance_hierarchy solver limited_dt s2 in
      match result with
      | Some e =>
          let tr := c_trace c ++ [Failed (c_solver c) next limited_dt e] in
          if do_backup opts then
            match c_backup c with
            | Some b => (mkConfig b (c_output c) (c_time c) (c_backup c) (Some (err_dt e)) tr, AtDo)
            | None => (mkConfig s3 (c_output c) (c_time c) (c_backup c) (c_failure c) tr, UndefinedBehaviour)
            end
          else (mkConfig s3 (c_output c) (c_time c) (c_backup c) (c_failure c) tr, Returned)
      | None =>
          let s4 := post_advance solver limited_dt s3 in
          let tr := c_trace c ++ [Accepted (c_solver c) next limited_dt s4] in
          (mkConfig s4 (c_output c) (solver_time solver s4)
             (if do_backup opts then Some s4 else c_backup c) None tr, AtDo)
      end
    else (c, AssertFailed).

  (** One iteration of either loop: lines 109-190.  After the inner loop body the inner condition is
      evaluated; if it does not hold, the output is invoked (188) and control returns to line 109. *)
  Definition step (c : config Ou St) (p : status) : config Ou St * status :=
    match p with
    | AtWhile => if while_cond c then (c, AtDo) else (c, Finished)
    | AtDo =>
        match do_body c with
        | (c', AtDo) =>
            if do_cond c' then (c', AtDo)
            else (mkConfig (c_solver c') (do_output output (c_output c') (c_solver c')) (c_time c')
                    (c_backup c') (c_failure c')
                    (c_trace c' ++ [Outputted (c_output c') (c_solver c')]), AtWhile)
        | r => r
        end
    | p' => (c, p')
    end.

  (** At most [n] iterations. *)
  Fixpoint run_steps (n : nat) (c : config Ou St) (p : status) : config Ou St * status :=
    match n with
    | O => (c, p)
    | S n' => let '(c', p') := step c p in run_steps n' c' p'
    end.

  (** Initial values of the local variables, lines 93-108. *)
  Definition start (s : St) (o : Ou) : config Ou St :=
    mkConfig s o (grid_time solver s) (if do_backup opts then Some s else None) None [].

  (** RunSimulation after at most [n] loop iterations. *)
  Definition run_simulation (n : nat) (s : St) (o : Ou) : config Ou St * status :=
    run_steps n (start s o) AtWhile.
End Run.
