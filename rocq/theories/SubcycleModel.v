(** Model of the level-recursive solvers, include/fub/solver/SubcycleFineFirstSolver.hpp and
    include/fub/solver/NoSubcycleSolver.hpp.

    Levels are natural numbers, durations exact reals, [std::pair<int,int> subcycle] is [nat * nat].
    MPI communication is only modelled in [mpi_min]. *)
From Coq Require Import Reals List Arith.
From Verif Require Import SplitModel.
Import ListNotations.
Local Open Scope R_scope.

(** The operations which the solvers use of their base class
    (include/fub/solver/SolverFacade.hpp:39-59).  [W] is the complete program state.
    Simplifications: [GetRatioToCoarserLevel(level).max()] is a constant of the object (as in
    src/AMReX/PatchHierarchy.cpp:196-202); [LevelExists(l)] is [l < num_levels]
    (src/AMReX/IntegratorContext.cpp:269-271); [ComputeStableDt(level)] only reads the state. *)
Record Integrator (W : Type) := mkIntegrator {
  num_levels : W -> nat;
  ratio_to_coarser : nat -> nat;
  level_stable_dt : nat -> W -> R;
  pre_advance_level : nat -> R -> nat * nat -> W -> W;
  reset_coarse_fine_fluxes : nat -> nat -> W -> W;
  advance_nonrecursively : nat -> R -> nat * nat -> W -> W * Result;
  apply_flux_correction : nat -> nat -> R -> W -> W;
  coarsen_conservatively : nat -> nat -> W -> W;
  complete_from_cons : nat -> R -> W -> W;
  copy_scratch_to_data : nat -> W -> W;
  post_advance_level : nat -> R -> nat * nat -> W -> W * Result;
  fill_ghost_single : nat -> W -> W;
  fill_ghost_two : nat -> nat -> W -> W;
  cycles : W -> nat }.
Arguments num_levels {W}. Arguments ratio_to_coarser {W}. Arguments level_stable_dt {W}.
Arguments pre_advance_level {W}. Arguments reset_coarse_fine_fluxes {W}.
Arguments advance_nonrecursively {W}. Arguments apply_flux_correction {W}.
Arguments coarsen_conservatively {W}. Arguments complete_from_cons {W}.
Arguments copy_scratch_to_data {W}. Arguments post_advance_level {W}.
Arguments fill_ghost_single {W}. Arguments fill_ghost_two {W}. Arguments cycles {W}.

(** [std::numeric_limits<double>::max()], the initial value of the minimum in
    SubcycleFineFirstSolver.hpp:102 and NoSubcycleSolver.hpp:59: (2 - 2^-52) * 2^1023. *)
Definition dbl_max : R := (2 - / 2 ^ 52) * 2 ^ 1023.

(** [MPI_Allreduce(..., MPI_MIN, ...)] (SubcycleFineFirstSolver.hpp:107-111), and [MinAll]
    (NoSubcycleSolver.hpp:64): minimum over the values contributed by all ranks. *)
Definition mpi_min (first : R) (others : list R) : R := fold_left Rmin others first.

Section Solvers.
  Context {W : Type}.
  Variable I : Integrator W.

  (** src/AMReX/IntegratorContext.cpp:269-271 *)
  Definition level_exists (l : nat) (w : W) : bool := Nat.ltb l (num_levels I w).

  (** SubcycleFineFirstSolver.hpp:90-98, [coarse_level = 0]: the loop runs from the fine level down. *)
  Fixpoint get_total_refine_ratio (fine_level : nat) : nat :=
    match fine_level with
    | O => 1
    | S l => ratio_to_coarser I (S l) * get_total_refine_ratio l
    end.

  (** SubcycleFineFirstSolver.hpp:100-106 (before the reduction over all ranks) *)
  Definition subcycle_local_dt (w : W) : R :=
    fold_left (fun min_dt l => Rmin min_dt (INR (get_total_refine_ratio l) * level_stable_dt I l w))
      (seq 0 (num_levels I w)) dbl_max.

  (** NoSubcycleSolver.hpp:57-62 (before the reduction over all ranks) *)
  Definition nosub_local_dt (w : W) : R :=
    fold_left (fun min_dt l => Rmin min_dt (level_stable_dt I l w)) (seq 0 (num_levels I w)) dbl_max.

  (** SubcycleFineFirstSolver.hpp:122-128 *)
  Definition scale_dt_on_error (e : TimeStepTooLarge) : TimeStepTooLarge :=
    mkTooLarge (err_dt e * INR (get_total_refine_ratio (err_level e))) 0.

  (** [for (int r = 0; r < n; ++r) { result = body(r); if (!result) return ...; }]
      (SubcycleFineFirstSolver.hpp:136-142); [k] iterations are left. *)
  Fixpoint for_subcycles (body : nat -> W -> W * Result) (r k : nat) (w : W) : W * Result :=
    match k with
    | O => (w, None)
    | S k' =>
        match body r w with
        | (w', Some e) => (w', Some e)
        | (w', None) => for_subcycles body (S r) k' w'
        end
    end.

  (** Lines 145-174 of SubcycleFineFirstSolver.hpp: everything after the recursion. *)
  Definition finish_level (l : nat) (dt : R) (sub : nat * nat) (w : W) : W * Result :=
    match advance_nonrecursively I l dt sub w with
    | (w1, Some e) => (w1, Some (scale_dt_on_error e))
    | (w1, None) =>
        let w2 := if level_exists (S l) w1 then apply_flux_correction I (S l) l dt w1 else w1 in
        let w3 := if level_exists (S l) w2
                  then complete_from_cons I l dt (coarsen_conservatively I (S l) l w2) else w2 in
        let w4 := copy_scratch_to_data I l w3 in
        match post_advance_level I l dt sub w4 with
        | (w5, Some e) => (w5, Some (scale_dt_on_error e))
        | (w5, None) => (w5, None)
        end
    end.

  (** SubcycleFineFirstSolver.hpp:114-175 [AdvanceLevel].  The recursion of the C++ code is bounded by
      the maximal number of levels of the hierarchy; [finer] is the number of levels which may be finer
      than [l], a level beyond it is treated as not existing. *)
  Fixpoint advance_level (finer l : nat) (dt : R) (sub : nat * nat) (w : W) : W * Result :=
    let w1 := pre_advance_level I l dt sub w in
    match finer with
    | O => finish_level l dt sub w1
    | S finer' =>
        if level_exists (S l) w1 then
          let w2 := reset_coarse_fine_fluxes I (S l) l w1 in
          let n := ratio_to_coarser I (S l) in
          match for_subcycles (fun r => advance_level finer' (S l) (dt / INR n) (r, n)) 0 n w2 with
          | (w3, Some e) => (w3, Some (scale_dt_on_error e))
          | (w3, None) => finish_level l dt sub w3
          end
        else finish_level l dt sub w1
    end.

  (** Ghost layers of levels [l], [l+1], ..., SubcycleFineFirstSolver.hpp:185-190; [k] bounds the
      number of levels. *)
  Fixpoint fill_finer (k l : nat) (w : W) : W :=
    match k with
    | O => w
    | S k' => if level_exists l w then fill_finer k' (S l) (fill_ghost_two I l (l - 1) w) else w
    end.

  (** SubcycleFineFirstSolver.hpp:177-193 [AdvanceHierarchy] for a regrid frequency > 0 (the remainder
      modulo 0 is undefined in C++). *)
  Definition advance_hierarchy_subcycle (max_levels regrid_frequency : nat) (dt : R) (w : W) : W * Result :=
    match advance_level (max_levels - 1) 0 dt (0, 1)%nat w with
    | (w1, Some e) => (w1, Some e)
    | (w1, None) =>
        if Nat.eqb (cycles I w1 mod regrid_frequency) 0
        then (fill_finer max_levels 1 (fill_ghost_single I 0 w1), None)
        else (w1, None)
    end.

  (** NoSubcycleSolver.hpp:88-104, everything after the recursion. *)
  Definition finish_level_nosub (l : nat) (dt : R) (w : W) : W * Result :=
    match advance_nonrecursively I l dt (0, 1)%nat w with
    | (w1, Some e) => (w1, Some e)
    | (w1, None) =>
        let w2 := if level_exists (S l) w1
                  then complete_from_cons I l dt (coarsen_conservatively I (S l) l
                         (apply_flux_correction I (S l) l dt w1)) else w1 in
        let w3 := copy_scratch_to_data I l w2 in
        let w4 := match l with O => fill_ghost_single I l w3 | S c => fill_ghost_two I l c w3 end in
        post_advance_level I l dt (0, 1)%nat w4
    end.

  (** NoSubcycleSolver.hpp:74-105 [AdvanceLevel]; [finer] as in [advance_level]. *)
  Fixpoint advance_level_nosub (finer l : nat) (dt : R) (w : W) : W * Result :=
    let w1 := pre_advance_level I l dt (0, 1)%nat w in
    match finer with
    | O => finish_level_nosub l dt w1
    | S finer' =>
        if level_exists (S l) w1 then
          match advance_level_nosub finer' (S l) dt (reset_coarse_fine_fluxes I (S l) l w1) with
          | (w3, Some e) => (w3, Some e)
          | (w3, None) => finish_level_nosub l dt w3
          end
        else finish_level_nosub l dt w1
    end.

  (** NoSubcycleSolver.hpp:68-72 *)
  Definition advance_hierarchy_nosub (max_levels : nat) (dt : R) (w : W) : W * Result :=
    advance_level_nosub (max_levels - 1) 0 dt w.
End Solvers.
