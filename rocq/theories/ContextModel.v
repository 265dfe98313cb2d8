(** Model of the time, cycle and regridding bookkeeping of fub::amrex::IntegratorContext,
    fub::amrex::GriddingAlgorithm and fub::amrex::PatchHierarchy. *)
From Coq Require Import Reals List Arith Bool.
From Verif Require Import SplitModel SubcycleModel.
Import ListNotations.
Local Open Scope R_scope.

(** Program state: the vector [data_] of an IntegratorContext
    (include/fub/AMReX/IntegratorContext.hpp:295-309; its size [n_data], per level [time_point],
    [regrid_time_point] and [cycles]), and the vector [patch_level_] of the PatchHierarchy
    (include/fub/AMReX/PatchHierarchy.hpp:130-160; its size [n_hier], per level [time_point], [cycles]
    and [box_array], the latter represented by a number).  [user] is everything else (cell data,
    fluxes, boundary conditions, user callbacks ...). *)
Record World (U : Type) := mkWorld {
  n_data : nat;
  d_time : nat -> R;
  d_regrid : nat -> R;
  d_cycles : nat -> nat;
  n_hier : nat;
  h_time : nat -> R;
  h_cycles : nat -> nat;
  h_boxes : nat -> nat;
  user : U }.
Arguments mkWorld {U}. Arguments n_data {U}. Arguments d_time {U}. Arguments d_regrid {U}.
Arguments d_cycles {U}. Arguments n_hier {U}. Arguments h_time {U}. Arguments h_cycles {U}.
Arguments h_boxes {U}. Arguments user {U}.

(** Everything the bookkeeping does not look into.  All of it may read the complete state but only
    changes [user].  [new_grids l] is the tagging and clustering done by AmrCore::regrid: box arrays of
    levels l+1, l+2, ..., and for each of them whether an unchanged level is rebuilt all the same (AMReX
    does this if the coarser box array changed). *)
Record Code (U : Type) := mkCode {
  new_grids : nat -> World U -> list (nat * bool);
  move_data : nat -> World U -> U;
  define_data : nat -> World U -> U;
  after_pre : nat -> R -> nat * nat -> nat -> World U -> U;
  key_mismatch : World U -> bool;
  feedback : R -> World U -> U;
  c_stable_dt : nat -> World U -> R;
  c_reset : nat -> nat -> World U -> U;
  c_advance : nat -> R -> nat * nat -> World U -> U * Result;
  c_correct : nat -> nat -> R -> World U -> U;
  c_coarsen : nat -> nat -> World U -> U;
  c_complete : nat -> R -> World U -> U;
  c_copy : nat -> World U -> U;
  c_fill1 : nat -> World U -> U;
  c_fill2 : nat -> nat -> World U -> U }.
Arguments new_grids {U}. Arguments move_data {U}. Arguments define_data {U}. Arguments after_pre {U}.
Arguments key_mismatch {U}. Arguments feedback {U}. Arguments c_stable_dt {U}. Arguments c_reset {U}.
Arguments c_advance {U}. Arguments c_correct {U}. Arguments c_coarsen {U}. Arguments c_complete {U}.
Arguments c_copy {U}. Arguments c_fill1 {U}. Arguments c_fill2 {U}.

(** Assignment to one element of a vector (std::vector::operator[] in all functions below). *)
Definition set_at {A} (f : nat -> A) (l : nat) (v : A) : nat -> A :=
  fun j => if Nat.eqb j l then v else f j.

Section Context.
  Context {U : Type}.
  Variable code : Code U.
  (** [GetMaxNumberOfLevels()], src/AMReX/PatchHierarchy.cpp:289-291 *)
  Variable max_levels : nat.
  (** [options_.refine_ratio.max()], src/AMReX/PatchHierarchy.cpp:196-202 *)
  Variable refine_ratio : nat.

  (** Replace the part the bookkeeping does not look into (no counterpart in the C++ code: the
      functions of [Code] act on other members). *)
  Definition with_user (w : World U) (u : U) : World U :=
    mkWorld (n_data w) (d_time w) (d_regrid w) (d_cycles w) (n_hier w) (h_time w) (h_cycles w) (h_boxes w) u.

  (** Box array of a level, empty if the level does not exist; [AmrMesh::boxArray()] used in
      src/AMReX/GriddingAlgorithm.cpp:90-95. *)
  Definition boxes_of (w : World U) (l : nat) : option nat :=
    if Nat.ltb l (n_hier w) then Some (h_boxes w l) else None.

  (** [AmrCore::regrid(which, time)] with the callbacks MakeNewLevelFromCoarse
      (src/AMReX/GriddingAlgorithm.cpp:208-238), RemakeLevel (240-250) and ClearLevel (252-255):
      new and rebuilt levels get the time of level [which] and the cycle number 0 (default member
      initialiser, include/fub/AMReX/PatchHierarchy.hpp:143-144).
      Simplification: the two branches of MakeNewLevelFromCoarse coincide for AMReX, which only calls it
      for levels beyond the finest one. *)
  Definition amr_core_regrid (which : nat) (w : World U) : World U :=
    let grids := firstn (max_levels - 1 - which) (new_grids code which w) in
    let n' := (S which + length grids)%nat in
    let rebuilt l :=
      match nth_error grids (l - S which) with
      | Some (b, force) =>
          Nat.ltb which l &&
          (force || match boxes_of w l with Some b' => negb (Nat.eqb b b') | None => true end)
      | None => false
      end in
    mkWorld (n_data w) (d_time w) (d_regrid w) (d_cycles w)
      n'
      (fun l => if rebuilt l then h_time w which else h_time w l)
      (fun l => if rebuilt l then O else h_cycles w l)
      (fun l => if Nat.ltb which l
                then match nth_error grids (l - S which) with Some (b, _) => b | None => h_boxes w l end
                else h_boxes w l)
      (move_data code which w).

  (** Loop of src/AMReX/GriddingAlgorithm.cpp:98-107: first level in [i .. i+k-1] whose box arrays
      differ.  Both vectors have [max_level + 1] entries. *)
  Fixpoint first_change (w w' : World U) (i k : nat) : nat :=
    match k with
    | O => i
    | S k' =>
        match boxes_of w i, boxes_of w' i with
        | Some a, Some b => if Nat.eqb a b then first_change w w' (S i) k' else i
        | None, None => first_change w w' (S i) k'
        | _, _ => i
        end
    end.

  (** src/AMReX/GriddingAlgorithm.cpp:86-110 [RegridAllFinerlevels]; returns the first changed level,
      [max_level + 1] if there is none. *)
  Definition regrid_all_finer_levels (which : nat) (w : World U) : World U * nat :=
    if Nat.ltb which (max_levels - 1) then
      let w' := amr_core_regrid which w in
      (w', first_change w w' (S which) (max_levels - 1 - which))
    else (w, max_levels).

  (** src/AMReX/IntegratorContext.cpp:292-345 [ResetHierarchyConfiguration(first_level)] *)
  Definition reset_hierarchy_configuration (first : nat) (w : World U) : World U :=
    mkWorld (n_hier w) (h_time w) (h_time w) (h_cycles w) (n_hier w) (h_time w) (h_cycles w) (h_boxes w)
      (define_data code first w).

  (** src/AMReX/IntegratorContext.cpp:601-627 [IntegratorContext::PreAdvanceLevel] *)
  Definition context_pre_advance_level (l : nat) (sub : nat * nat) (w : World U) : World U * nat :=
    if (Nat.eqb (fst sub) 0 && (if Req_EM_T (d_regrid w l) (d_time w l) then false else true))%bool then
      let '(w1, regrid_level) := regrid_all_finer_levels l w in
      let w2 := mkWorld (n_data w1) (d_time w1)
                  (fun j => if (Nat.leb l j && Nat.ltb j (n_data w1))%bool then d_time w1 j else d_regrid w1 j)
                  (d_cycles w1) (n_hier w1) (h_time w1) (h_cycles w1) (h_boxes w1) (user w1) in
      ((if Nat.ltb regrid_level max_levels then reset_hierarchy_configuration regrid_level w2 else w2),
       regrid_level)
    else (w, max_levels).

  (** include/fub/solver/DimensionalSplitLevelIntegrator.hpp:167-190: the context's function followed by
      filling ghost cells. *)
  Definition ctx_pre_advance_level (l : nat) (dt : R) (sub : nat * nat) (w : World U) : World U :=
    let '(w1, regrid_level) := context_pre_advance_level l sub w in
    with_user w1 (after_pre code l dt sub regrid_level w1).

  (** src/AMReX/IntegratorContext.cpp:653-679 [PostAdvanceLevel] *)
  Definition ctx_post_advance_level (l : nat) (dt : R) (sub : nat * nat) (w : World U) : World U * Result :=
    let last := Nat.eqb (fst sub) (snd sub - 1) in
    let t := d_time w l + dt in
    let c := S (d_cycles w l) in
    (mkWorld (n_data w) (set_at (d_time w) l t) (d_regrid w) (set_at (d_cycles w) l c) (n_hier w)
       (if last then set_at (h_time w) l t else h_time w)
       (if last then set_at (h_cycles w) l c else h_cycles w)
       (h_boxes w) (user w), None).

  (** src/AMReX/IntegratorContext.cpp:681-690 [PreAdvanceHierarchy]; [key_mismatch] compares the box
      arrays of the scratch data and the hierarchy data of level 0. *)
  Definition ctx_pre_advance_hierarchy (w : World U) : World U :=
    let w1 := if Nat.eqb (n_data w) (n_hier w) then w else reset_hierarchy_configuration 0 w in
    if key_mismatch code w1 then reset_hierarchy_configuration 0 w1 else w1.

  (** src/AMReX/IntegratorContext.cpp:692-703 [PostAdvanceHierarchy] *)
  Definition ctx_post_advance_hierarchy (dt : R) (w : World U) : World U :=
    let w1 := mkWorld (n_data w) (d_time w) (d_regrid w) (d_cycles w) (n_hier w)
      (fun l => if Nat.ltb l (n_hier w) then d_time w 0%nat else h_time w l)
      (fun l => if Nat.ltb l (n_hier w) then d_cycles w l else h_cycles w l)
      (h_boxes w) (user w) in
    with_user w1 (feedback code dt w1).

  (** Copy constructor, src/AMReX/IntegratorContext.cpp:174-177: the hierarchy is copied, the vector of
      level data is left empty.  [copy_user] stands for the copy of everything else. *)
  Definition ctx_copy (copy_user : U -> U) (w : World U) : World U :=
    mkWorld 0 (fun _ => 0) (fun _ => 0) (fun _ => O) (n_hier w) (h_time w) (h_cycles w) (h_boxes w)
      (copy_user (user w)).

  (** include/fub/AMReX/IntegratorContext.hpp:254-264, src/AMReX/IntegratorContext.cpp:256-264
      [GetTimePoint(level)]: access to a vector element, undefined ([None]) beyond its size. *)
  Definition ctx_get_time_point (w : World U) (l : nat) : option R :=
    if Nat.ltb l (n_data w) then Some (d_time w l) else None.
  (** src/AMReX/IntegratorContext.cpp:261-264 [GetCycles(level)] *)
  Definition ctx_get_cycles (w : World U) (l : nat) : option nat :=
    if Nat.ltb l (n_data w) then Some (d_cycles w l) else None.

  (** The level integrator made of these functions, to be used by the solvers of SubcycleModel.v. *)
  Definition ctx_integrator : Integrator (World U) :=
    {| num_levels := n_hier;
       ratio_to_coarser := fun l => match l with O => 1%nat | S _ => refine_ratio end;
       level_stable_dt := c_stable_dt code;
       pre_advance_level := ctx_pre_advance_level;
       reset_coarse_fine_fluxes := fun f c w => with_user w (c_reset code f c w);
       advance_nonrecursively := fun l dt s w =>
         let '(u, r) := c_advance code l dt s w in (with_user w u, r);
       apply_flux_correction := fun f c dt w => with_user w (c_correct code f c dt w);
       coarsen_conservatively := fun f c w => with_user w (c_coarsen code f c w);
       complete_from_cons := fun l dt w => with_user w (c_complete code l dt w);
       copy_scratch_to_data := fun l w => with_user w (c_copy code l w);
       post_advance_level := ctx_post_advance_level;
       fill_ghost_single := fun l w => with_user w (c_fill1 code l w);
       fill_ghost_two := fun f c w => with_user w (c_fill2 code f c w);
       cycles := fun w => d_cycles w 0%nat |}.

  (** One coarse step as made by include/fub/RunSimulation.hpp:119-162: PreAdvanceHierarchy,
      AdvanceHierarchy, and PostAdvanceHierarchy on success. *)
  Definition coarse_step (regrid_frequency : nat) (dt : R) (w : World U) : World U * Result :=
    match advance_hierarchy_subcycle ctx_integrator max_levels regrid_frequency dt
            (ctx_pre_advance_hierarchy w) with
    | (w1, None) => (ctx_post_advance_hierarchy dt w1, None)
    | (w1, Some e) => (w1, Some e)
    end.

  (** The same with include/fub/solver/NoSubcycleSolver.hpp. *)
  Definition coarse_step_nosub (dt : R) (w : World U) : World U * Result :=
    match advance_hierarchy_nosub ctx_integrator max_levels dt (ctx_pre_advance_hierarchy w) with
    | (w1, None) => (ctx_post_advance_hierarchy dt w1, None)
    | (w1, Some e) => (w1, Some e)
    end.

  (** A history of successful coarse steps; [None] if one of them fails. *)
  Fixpoint coarse_steps (regrid_frequency : nat) (dts : list R) (w : World U) : option (World U) :=
    match dts with
    | [] => Some w
    | dt :: r =>
        match coarse_step regrid_frequency dt w with
        | (w', None) => coarse_steps regrid_frequency r w'
        | (_, Some _) => None
        end
    end.
End Context.
