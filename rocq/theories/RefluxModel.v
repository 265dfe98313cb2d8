(** Model of a time step of a refined hierarchy: conservative updates, flux registers, flux correction and
    coarsening, in any number of space dimensions.
    Sources: src/AMReX/IntegratorContext.cpp, include/fub/solver/SubcycleFineFirstSolver.hpp,
    include/fub/solver/NoSubcycleSolver.hpp, include/fub/solver/DimensionalSplitLevelIntegrator.hpp.
    amrex::FluxRegister and amrex::average_down are external; they are modelled from their documentation.
    One conserved component is modelled (all components are treated alike).  Ghost cells are not part of the
    model: the numeric fluxes of every step are arbitrary functions of the face, so whatever the boundary
    conditions and ghost cell fillings produce is covered.  All patches of a level use the same flux on a
    face they share. *)
From Coq Require Import List ZArith Reals Bool.
From Verif Require Import ArrayModel.
Import ListNotations.
Local Open Scope Z_scope.

(** One split step of a level: direction, split_dt and the fluxes computed by ComputeNumericFluxes
    (DimensionalSplitLevelIntegrator.hpp:226-259).  A face in direction d has the index of the cell right of
    it. *)
Record split_step := mkStep { st_dir : nat; st_dt : R; st_flux : index -> R }.

(** What happens during one call of AdvanceLevel: the recursive calls for the next finer level
    (SubcycleFineFirstSolver.hpp:136-141, NoSubcycleSolver.hpp:82-83), then the split steps of this level
    (DimensionalSplitLevelIntegrator.hpp:267-275).  The number and sizes of both are arbitrary here. *)
Inductive plan := Plan (subcycles : list plan) (steps : list split_step).

(** data_[level] of IntegratorContext.hpp:322-340 [LevelData]: scratch and the flux register to the coarser
    level.  The register has one entry for every face of the boundary of a coarsened patch; a face belongs
    to direction, side of the patch (true: low) and the coarse cell inside the patch. *)
Definition register := nat -> bool -> index -> R.
(** IntegratorContext.hpp:322-340 [LevelData] *)
Record level_data := mkLevel { scratch : index -> R; coarse_fine : register }.

(** A refinement level: GetRatioToCoarserLevel and the patches, coarsened by the ratio, as lists of cells
    (amrex::BoxArray, IntegratorContext.cpp:329-330 [coarse_fine.define]) *)
Record refinement := mkRefinement { ref_ratio : list Z; ref_patches : list (list index) }.

(** membership of a cell, used for iterations over valid boxes (IntegratorContext.cpp:468, 490, 531) *)
Definition mem (c : index) (l : list index) : bool := if in_dec (list_eq_dec Z.eq_dec) c l then true else false.

(** amrex::refine of one cell: the fine cells in a coarse cell (used by average_down,
    IntegratorContext.cpp:468-470, and FineAdd, 492) *)
Definition children (ratio : list Z) (c : index) : list index :=
  loop_indices (map2 Z.mul ratio c) (map2 (fun r x => r * (x + 1)) ratio c).

(** the valid cells of the finer level *)
Definition covered (f : refinement) : list index := concat (ref_patches f).
(** the valid cells of the finer level (GetScratch(fine).boxArray(), IntegratorContext.cpp:464) *)
Definition refined (f : refinement) : list index := flat_map (children (ref_ratio f)) (covered f).
(** Geometry(level + 1).CellSize(), IntegratorContext.cpp:486 *)
Definition refined_dx (f : refinement) (dx : list R) : list R := map2 (fun h r => h / IZR r)%R dx (ref_ratio f).

(** AMREX_D_TERM(dx[0], *dx[1], *dx[2]), IntegratorContext.cpp:487 *)
Definition volume (dx : list R) : R := fold_right Rmult 1%R dx.
(** vol * scale / dx[dir_v], IntegratorContext.cpp:488 *)
Definition vol_dt_over_dx (dx : list R) (s : split_step) : R := (volume dx * st_dt s / nth (st_dir s) dx 0)%R.

(** sum of a list of doubles, the loops inside average_down and FineAdd (IntegratorContext.cpp:468, 492) *)
Definition sum (l : list R) : R := fold_right Rplus 0%R l.

(** UpdateConservatively on the valid cells, see property C17 for the patch level
    (DimensionalSplitLevelIntegrator.hpp:249, src/AMReX/TimeIntegrator.cpp:60-68) *)
Definition UpdateConservatively (cells : list index) (dx : list R) (s : split_step) (u : index -> R) : index -> R :=
  fun c => if mem c cells
           then (u c + st_dt s / nth (st_dir s) dx 0 * (st_flux s c - st_flux s (Shift c (st_dir s) 1)))%R
           else u c.

(** the fine faces on the low or high side of a coarse cell in direction d (FineAdd) *)
Definition fine_faces (ratio : list Z) (d : nat) (low : bool) (c : index) : list index :=
  if low
  then filter (fun x => nth d x 0 =? nth d ratio 0 * nth d c 0) (children ratio c)
  else map (fun x => Shift x d 1)
           (filter (fun x => nth d x 0 =? nth d ratio 0 * (nth d c 0 + 1) - 1) (children ratio c)).

(** amrex::FluxRegister::FineAdd(fluxes, dir, 0, 0, ncomp, mult), IntegratorContext.cpp:492.  Entries that do
    not belong to the boundary of a patch are changed as well, they are never read. *)
Definition FineAdd (ratio : list Z) (s : split_step) (mult : R) (reg : register) : register :=
  fun d low c =>
    if Nat.eqb d (st_dir s) then (reg d low c + mult * sum (map (st_flux s) (fine_faces ratio d low c)))%R
    else reg d low c.

(** amrex::FluxRegister::CrseInit(fluxes, dir, 0, 0, ncomp, mult, ADD), IntegratorContext.cpp:497-498 *)
Definition CrseInit (s : split_step) (mult : R) (reg : register) : register :=
  fun d low c =>
    if Nat.eqb d (st_dir s) then (reg d low c + mult * st_flux s (if low then c else Shift c d 1))%R
    else reg d low c.

(** the assignment to one cell of the scratch data (FluxRegister::Reflux, IntegratorContext.cpp:531) *)
Definition add_to (u : index -> R) (c : index) (v : R) : index -> R :=
  fun z => if list_eq_dec Z.eq_dec z c then (u z + v)%R else u z.

(** amrex::FluxRegister::Reflux(scratch, dir, 1.0, 0, 0, ncomp, cgeom), IntegratorContext.cpp:531: the cells
    outside next to the low faces of a patch get - reg / vol, those next to the high faces + reg / vol.
    [vol] is the volume of the coarse cells. *)
Definition Reflux_patch (vol : R) (d : nat) (reg : register) (u : index -> R) (patch : list index) : index -> R :=
  fold_left
    (fun u c =>
       let u1 := if mem (Shift c d (-1)) patch then u
                 else add_to u (Shift c d (-1)) (- 1 * reg d true c / vol)%R in
       if mem (Shift c d 1) patch then u1 else add_to u1 (Shift c d 1) (1 * reg d false c / vol)%R)
    patch u.

(** IntegratorContext.cpp:531, all patches *)
Definition Reflux (vol : R) (f : refinement) (d : nat) (reg : register) (u : index -> R) : index -> R :=
  fold_left (Reflux_patch vol d reg) (ref_patches f) u.

(** IntegratorContext.cpp:516-533 [ApplyFluxCorrection]; [rank] is Rank() *)
Definition ApplyFluxCorrection (rank : nat) (dx : list R) (f : refinement) (fine : level_data) (u : index -> R) : index -> R :=
  fold_left (fun u dir => Reflux (volume dx) f dir (coarse_fine fine) u) (seq 0 rank) u.

(** IntegratorContext.cpp:451-471 [CoarsenConservatively] with amrex::average_down for equal cell volumes:
    covered cells get the mean value of their children *)
Definition CoarsenConservatively (f : refinement) (fine u : index -> R) : index -> R :=
  fun c => if mem c (covered f)
           then (sum (map fine (children (ref_ratio f) c)) / INR (length (children (ref_ratio f) c)))%R
           else u c.

(** IntegratorContext.cpp:502-514 [ResetCoarseFineFluxes] *)
Definition ResetCoarseFineFluxes (finer : list level_data) : list level_data :=
  match finer with
  | [] => []
  | next :: rest => mkLevel (scratch next) (fun _ _ _ => 0%R) :: rest
  end.

(** IntegratorContext.cpp:473-500 [AccumulateCoarseFineFluxes]; [own] is the ratio to the coarser level if
    level > 0, the finer levels are [finer] *)
Definition AccumulateCoarseFineFluxes (own : option (list Z)) (dx : list R) (s : split_step)
  (this : level_data) (finer : list level_data) : level_data * list level_data :=
  let vol_dt_over_dx := vol_dt_over_dx dx s in
  let this' := match own with
               | Some ratio => mkLevel (scratch this) (FineAdd ratio s vol_dt_over_dx (coarse_fine this))
               | None => this
               end in
  match finer with
  | [] => (this', [])
  | next :: rest => (this', mkLevel (scratch next) (CrseInit s (- vol_dt_over_dx) (coarse_fine next)) :: rest)
  end.

(** DimensionalSplitLevelIntegrator.hpp:226-265: one split step, if the time step is small enough *)
Definition AdvanceLevel_Split (own : option (list Z)) (cells : list index) (dx : list R)
  (state : level_data * list level_data) (s : split_step) : level_data * list level_data :=
  let '(this, finer) := state in
  let this1 := mkLevel (UpdateConservatively cells dx s (scratch this)) (coarse_fine this) in
  AccumulateCoarseFineFluxes own dx s this1 finer.

(** SubcycleFineFirstSolver.hpp:115-175 and NoSubcycleSolver.hpp:76-105 [AdvanceLevel] for a step without
    failures and regridding: reset the register of the finer level, advance the finer level, advance this
    level, correct the fluxes and coarsen.  [cells] and [dx] belong to this level, [fines] are the finer
    levels. *)
Fixpoint AdvanceLevel (rank : nat) (own : option (list Z)) (fines : list refinement) (cells : list index) (dx : list R)
  (p : plan) (data : list level_data) : list level_data :=
  let '(Plan subcycles steps) := p in
  match data with
  | [] => []
  | this :: finer =>
      match fines with
      | [] =>
          let '(this1, _) := fold_left (AdvanceLevel_Split own cells dx) steps (this, []) in
          this1 :: finer
      | f :: fines' =>
          let finer1 := ResetCoarseFineFluxes finer in
          let finer2 :=
            fold_left (fun fd sub => AdvanceLevel rank (Some (ref_ratio f)) fines' (refined f) (refined_dx f dx) sub fd)
                      subcycles finer1 in
          let '(this3, finer3) := fold_left (AdvanceLevel_Split own cells dx) steps (this, finer2) in
          match finer3 with
          | [] => this3 :: finer3
          | fine :: _ =>
              let u4 := ApplyFluxCorrection rank dx f fine (scratch this3) in
              let u5 := CoarsenConservatively f (scratch fine) u4 in
              mkLevel u5 (coarse_fine this3) :: finer3
          end
      end
  end.
