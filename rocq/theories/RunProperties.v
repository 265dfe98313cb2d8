(** Properties C05-C08, C57: simulation runs. *)
From Coq Require Import Reals List ZArith Lia Lra.
From Verif Require Import SplitModel RunModel RunSpec RunProofs RunExamples.
Import ListNotations.
Local Open Scope R_scope.

(** C05: every accepted step is positive, moves the clock by exactly its size, passes neither the
    final time nor the requested output time, and starts below the maximal cycle count. *)
Theorem C05_no_overshoot : forall (Ou St : Type) (sv : Solver St) (out : Output Ou St) opts,
  clock_solver sv -> future_output out -> 0 < cfl opts -> 0 <= smallest_time_step_size opts ->
  forall n s o c p, run_simulation sv out opts n s o = (c, p) ->
  forall b nx dt a, In (Accepted b nx dt a) (c_trace c) ->
    0 < dt /\
    solver_time sv a = solver_time sv b + dt /\
    solver_time sv a <= final_time opts /\
    (exists o', nx = next_output_time out o' (solver_time sv b)) /\
    solver_time sv a <= nx /\
    (max_cycles opts < 0 \/ solver_cycles sv b < max_cycles opts)%Z.
Proof. exact @C05_lemma. Qed.
Print Assumptions C05_no_overshoot.

Example C05_example : clock_solver ex_solver /\ future_output ex_out /\
  0 < cfl (ex_opts true) /\ 0 <= smallest_time_step_size (ex_opts true) /\
  exists c, run_simulation ex_solver ex_quiet (ex_opts true) 3 (0, 0%Z) tt = (c, AtDo) /\
    c_trace c = [Failed (0, 0%Z) (0 + 1) (1 * (1/2)) (mkTooLarge (1/4) 0);
                 Accepted (0, 0%Z) (0 + 1) (1 * (1/4)) (0 + 1 * (1/4), 1%Z)].
Proof.
  exact (conj ex_clock (conj ex_future (conj Rlt_0_1 (conj (Rle_refl 0) ex_run_3)))).
Qed.

(** C06: with backups the trace is a story: every attempt starts in the state produced by the
    accepted steps only, and outputs show exactly these states; the run never aborts. *)
Theorem C06_failed_steps_leave_no_trace :
  forall (Ou St : Type) (sv : Solver St) (out : Output Ou St) opts, do_backup opts = true ->
  forall n s o c p, run_simulation sv out opts n s o = (c, p) ->
  story sv s (c_trace c) (c_solver c) /\ p <> Returned /\ p <> UndefinedBehaviour.
Proof. exact @C06_lemma. Qed.
Print Assumptions C06_failed_steps_leave_no_trace.

(** Every attempt is as large as possible: it is the minimum of the time to the end, the time to the
    next output, and cfl times the estimate, where the estimate is the dt reported by the pending
    failure if there is one and the freshly computed stable dt otherwise. *)
Theorem C06_retry_size :
  forall (Ou St : Type) (sv : Solver St) (out : Output Ou St) opts, clock_solver sv ->
  forall n s o c p, run_simulation sv out opts n s o = (c, p) ->
  forall tr1 x tr2 b nx dt, c_trace c = tr1 ++ x :: tr2 -> is_attempt x b nx dt ->
  exists d, d = match pending tr1 with
                | Some e => e
                | None => fst (compute_stable_dt sv (pre_advance sv b))
                end /\ smallest_time_step_size opts < d /\
    dt <= cfl opts * d /\ dt <= final_time opts - solver_time sv b /\ dt <= nx - solver_time sv b /\
    (dt = cfl opts * d \/ dt = final_time opts - solver_time sv b \/ dt = nx - solver_time sv b).
Proof. exact @C06_step_size_lemma. Qed.
Print Assumptions C06_retry_size.

Example C06_example : do_backup (ex_opts true) = true /\ clock_solver ex_solver /\
  exists c, run_simulation ex_solver ex_quiet (ex_opts true) 3 (0, 0%Z) tt = (c, AtDo) /\
    c_trace c = [Failed (0, 0%Z) (0 + 1) (1 * (1/2)) (mkTooLarge (1/4) 0);
                 Accepted (0, 0%Z) (0 + 1) (1 * (1/4)) (0 + 1 * (1/4), 1%Z)].
Proof. exact (conj eq_refl (conj ex_clock ex_run_3)). Qed.

(** C07: without backups a failure is the last event of the run. *)
Theorem C07_failure_without_backup_ends_run :
  forall (Ou St : Type) (sv : Solver St) (out : Output Ou St) opts, do_backup opts = false ->
  forall n s o c p, run_simulation sv out opts n s o = (c, p) ->
  (exists x, In x (c_trace c) /\ is_failed x = true) ->
  p = Returned /\
  (exists tr f, c_trace c = tr ++ [f] /\ is_failed f = true /\
     (forall x, In x tr -> is_failed x = false)) /\
  (forall m, run_simulation sv out opts (n + m) s o = (c, p)).
Proof. exact @C07_lemma. Qed.
Print Assumptions C07_failure_without_backup_ends_run.

Example C07_example : do_backup (ex_opts false) = false /\
  exists c, run_simulation ex_solver ex_quiet (ex_opts false) 2 (0, 0%Z) tt = (c, Returned) /\
    c_trace c = [Failed (0, 0%Z) (0 + 1) (1 * (1/2)) (mkTooLarge (1/4) 0)].
Proof. exact (conj eq_refl ex_run_return). Qed.

(** C08, first half: outputs are made only for states where output is due or the run ends. *)
Theorem C08_output_only_when_due :
  forall (Ou St : Type) (sv : Solver St) (out : Output Ou St) opts, clock_solver sv ->
  forall n s o c p, run_simulation sv out opts n s o = (c, p) ->
  forall o' x, In (Outputted o' x) (c_trace c) ->
    shall_output_now out o' x = true \/
    final_time opts <= solver_time sv x + smallest_time_step_size opts \/
    (0 <= max_cycles opts <= solver_cycles sv x)%Z.
Proof. exact @C08_due_lemma. Qed.
Print Assumptions C08_output_only_when_due.

(** A finished run has reached its final time or its cycle limit, and its last state was output. *)
Theorem C08_final_state_is_output :
  forall (Ou St : Type) (sv : Solver St) (out : Output Ou St) opts, clock_solver sv ->
  forall n s o c, run_simulation sv out opts n s o = (c, Finished) ->
  (final_time opts <= solver_time sv (c_solver c) + smallest_time_step_size opts \/
   (0 <= max_cycles opts <= solver_cycles sv (c_solver c))%Z) /\
  (c_trace c = [] /\ c_solver c = s \/
   exists tr o', c_trace c = tr ++ [Outputted o' (c_solver c)]).
Proof. exact @C08_end_lemma. Qed.
Print Assumptions C08_final_state_is_output.

(** C08, second half, holds for runs without failures: output times increase strictly.
    Missing: runs with failures, see the refutation below. *)
Theorem C08_output_once_partial :
  forall (Ou St : Type) (sv : Solver St) (out : Output Ou St) opts,
  clock_solver sv -> future_output out -> 0 < cfl opts -> 0 <= smallest_time_step_size opts ->
  forall n s o c p, run_simulation sv out opts n s o = (c, p) ->
  p = AtWhile \/ p = AtDo \/ p = Finished ->
  (forall x, In x (c_trace c) -> is_failed x = false) ->
  increasing (output_times sv (c_trace c)).
Proof. exact @C08_increasing_lemma. Qed.
Print Assumptions C08_output_once_partial.

(** The unrestricted claim is false: a failed step directly after an output repeats that output. *)
Theorem C08_output_once_refuted :
  exists (St Ou : Type) (sv : Solver St) (out : Output Ou St) opts n s o c p,
    clock_solver sv /\ future_output out /\ 0 < cfl opts /\ 0 <= smallest_time_step_size opts /\
    run_simulation sv out opts n s o = (c, p) /\
    ~ NoDup (output_times sv (c_trace c)).
Proof. exact C08_refuted_lemma. Qed.
Print Assumptions C08_output_once_refuted.

Example C08_example : clock_solver ex_solver /\ future_output ex_out /\
  0 < cfl (ex_opts true) /\ 0 <= smallest_time_step_size (ex_opts true) /\
  exists c, run_simulation ex_solver ex_out ex_small_opts 2 (0, 0%Z) tt = (c, AtWhile) /\
    c_trace c = [Accepted (0, 0%Z) (0 + 1) (1/8 - 0) (0 + (1/8 - 0), 1%Z);
                 Outputted tt (0 + (1/8 - 0), 1%Z)].
Proof.
  exact (conj ex_clock (conj ex_future (conj Rlt_0_1 (conj (Rle_refl 0) ex_run_out)))).
Qed.

(** C57: with backups, an honest solver and output times bounded away from the present, every run ends. *)
Theorem C57_run_terminates :
  forall (Ou St : Type) (sv : Solver St) (out : Output Ou St) opts,
  clock_solver sv -> 0 < cfl opts -> 0 <= smallest_time_step_size opts ->
  forall delta gamma, smallest_time_step_size opts < delta -> 0 < gamma ->
  honest_solver sv (cfl opts) delta ->
  (forall o t, t + gamma <= next_output_time out o t) ->
  do_backup opts = true ->
  forall s o, exists n, snd (run_simulation sv out opts n s o) = Finished.
Proof. exact @C57_lemma. Qed.
Print Assumptions C57_run_terminates.

(** Without honesty a run can retry the same step forever. *)
Theorem C57_unconditional_termination_refuted :
  exists (St Ou : Type) (sv : Solver St) (out : Output Ou St) opts s o,
    clock_solver sv /\ future_output out /\ 0 < cfl opts /\ 0 <= smallest_time_step_size opts /\
    do_backup opts = true /\
    forall n, snd (run_simulation sv out opts n s o) <> Finished.
Proof. exact C57_refuted_lemma. Qed.
Print Assumptions C57_unconditional_termination_refuted.

Example C57_example : clock_solver ex_solver /\ future_output ex_out /\
  honest_solver ex_solver (cfl (ex_opts true)) (1/4) /\
  smallest_time_step_size (ex_opts true) < 1/4 /\
  (forall o t, t + 1 <= next_output_time ex_out o t).
Proof. exact ex_termination_hyps. Qed.
