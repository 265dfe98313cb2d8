(** Specification vocabulary for the level bookkeeping. *)
From Coq Require Import Reals List Arith.
From Verif Require Import SplitModel SubcycleModel ContextModel.
Import ListNotations.
Local Open Scope R_scope.

(** A context as it is after construction or copying: no level data yet, all levels of the hierarchy at
    time [T]. *)
Definition fresh {U} (max_levels : nat) (T : R) (w : World U) : Prop :=
  n_data w = O /\ (0 < n_hier w <= max_levels)%nat /\ (forall l, (l < n_hier w)%nat -> h_time w l = T).

(** Histories: successful coarse steps, and restarts from a backup of the current state (which
    RunSimulation makes after a failed step).  [n] counts the steps, [t] is the sum of their sizes. *)
Inductive history {U} (step : R -> World U -> World U * Result) (copy_user : U -> U)
    (w0 : World U) : nat -> R -> World U -> Prop :=
| h_start : history step copy_user w0 0 0 w0
| h_step : forall n t w dt w', history step copy_user w0 n t w -> 0 < dt ->
    step dt w = (w', None) -> history step copy_user w0 (S n) (t + dt) w'
| h_restore : forall n t w, history step copy_user w0 n t w ->
    history step copy_user w0 n t (ctx_copy copy_user w).

(** Regridding from level [which] finds the grids that are already there. *)
Definition keeps_grids {U} (code : Code U) (which : nat) : Prop :=
  forall w, new_grids code which w =
    map (fun l => (h_boxes w l, false)) (seq (S which) (n_hier w - S which)).

(** Everything published agrees with time [T]. *)
Definition published {U} (T : R) (w : World U) : Prop :=
  forall l, (l < n_hier w)%nat -> h_time w l = T.

(** The solver's own clocks, if there are any, agree with time [T]. *)
Definition clocks {U} (T : R) (w : World U) : Prop :=
  forall l t, ctx_get_time_point w l = Some t -> t = T.
