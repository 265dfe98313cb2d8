(** Specification vocabulary for level-recursive solvers: the calls made to the level integrator are
    written to a log. *)
From Coq Require Import Reals List Arith.
From Verif Require Import SplitModel SubcycleModel.
Import ListNotations.
Local Open Scope R_scope.

(** Observed calls, named after the public functions of the level integrator. *)
Inductive event :=
| Pre (l : nat) (dt : R) (sub : nat * nat)
| Reset (fine coarse : nat)
| Step (l : nat) (dt : R) (sub : nat * nat) (r : Result)
| Correct (fine coarse : nat) (dt : R)
| Average (fine coarse : nat)
| Rebuild (l : nat) (dt : R)
| Publish (l : nat)
| Fill (l : nat)
| Post (l : nat) (dt : R) (sub : nat * nat) (r : Result).

(** A level integrator which behaves like [I] and logs every call. *)
Definition observed {W} (I : Integrator W) : Integrator (list event * W) :=
  {| num_levels := fun '(_, w) => num_levels I w;
     ratio_to_coarser := ratio_to_coarser I;
     level_stable_dt := fun l '(_, w) => level_stable_dt I l w;
     pre_advance_level := fun l dt s '(lg, w) => (lg ++ [Pre l dt s], pre_advance_level I l dt s w);
     reset_coarse_fine_fluxes := fun f c '(lg, w) => (lg ++ [Reset f c], reset_coarse_fine_fluxes I f c w);
     advance_nonrecursively := fun l dt s '(lg, w) =>
       let '(w', r) := advance_nonrecursively I l dt s w in ((lg ++ [Step l dt s r], w'), r);
     apply_flux_correction := fun f c dt '(lg, w) => (lg ++ [Correct f c dt], apply_flux_correction I f c dt w);
     coarsen_conservatively := fun f c '(lg, w) => (lg ++ [Average f c], coarsen_conservatively I f c w);
     complete_from_cons := fun l dt '(lg, w) => (lg ++ [Rebuild l dt], complete_from_cons I l dt w);
     copy_scratch_to_data := fun l '(lg, w) => (lg ++ [Publish l], copy_scratch_to_data I l w);
     post_advance_level := fun l dt s '(lg, w) =>
       let '(w', r) := post_advance_level I l dt s w in ((lg ++ [Post l dt s r], w'), r);
     fill_ghost_single := fun l '(lg, w) => (lg ++ [Fill l], fill_ghost_single I l w);
     fill_ghost_two := fun l c '(lg, w) => (lg ++ [Fill l], fill_ghost_two I l c w);
     cycles := fun '(_, w) => cycles I w |}.

(** Product of the refinement ratios of levels 1 .. l. *)
Fixpoint ratio_product (ratio : nat -> nat) (l : nat) : nat :=
  match l with
  | O => 1
  | S k => ratio_product ratio k * ratio (S k)
  end.

(** Sizes of the time steps made on level [l], in order. *)
Fixpoint step_sizes (l : nat) (lg : list event) : list R :=
  match lg with
  | [] => []
  | Step l' dt _ _ :: r => if Nat.eqb l' l then dt :: step_sizes l r else step_sizes l r
  | _ :: r => step_sizes l r
  end.

(** Sum of a list. *)
Fixpoint total (l : list R) : R := match l with [] => 0 | a :: r => a + total r end.

(** Failure reported by an observed call. *)
Definition failure (e : event) : Result :=
  match e with
  | Step _ _ _ r => r
  | Post _ _ _ r => r
  | _ => None
  end.

(** All calls keep the number of levels. *)
Definition fixed_levels {W} (I : Integrator W) : Prop :=
  (forall l dt s w, num_levels I (pre_advance_level I l dt s w) = num_levels I w) /\
  (forall f c w, num_levels I (reset_coarse_fine_fluxes I f c w) = num_levels I w) /\
  (forall l dt s w, num_levels I (fst (advance_nonrecursively I l dt s w)) = num_levels I w) /\
  (forall f c dt w, num_levels I (apply_flux_correction I f c dt w) = num_levels I w) /\
  (forall f c w, num_levels I (coarsen_conservatively I f c w) = num_levels I w) /\
  (forall l dt w, num_levels I (complete_from_cons I l dt w) = num_levels I w) /\
  (forall l w, num_levels I (copy_scratch_to_data I l w) = num_levels I w) /\
  (forall l dt s w, num_levels I (fst (post_advance_level I l dt s w)) = num_levels I w) /\
  (forall l w, num_levels I (fill_ghost_single I l w) = num_levels I w) /\
  (forall l c w, num_levels I (fill_ghost_two I l c w) = num_levels I w).

(** Levels may appear and disappear, but only in PreAdvanceLevel(l) and only finer than [l]. *)
Definition regrids_finer_levels {W} (I : Integrator W) : Prop :=
  (forall l dt s w j, (j <= l)%nat ->
     (j < num_levels I (pre_advance_level I l dt s w) <-> j < num_levels I w)%nat) /\
  (forall f c w, num_levels I (reset_coarse_fine_fluxes I f c w) = num_levels I w) /\
  (forall l dt s w, num_levels I (fst (advance_nonrecursively I l dt s w)) = num_levels I w) /\
  (forall f c dt w, num_levels I (apply_flux_correction I f c dt w) = num_levels I w) /\
  (forall f c w, num_levels I (coarsen_conservatively I f c w) = num_levels I w) /\
  (forall l dt w, num_levels I (complete_from_cons I l dt w) = num_levels I w) /\
  (forall l w, num_levels I (copy_scratch_to_data I l w) = num_levels I w) /\
  (forall l dt s w, num_levels I (fst (post_advance_level I l dt s w)) = num_levels I w) /\
  (forall l w, num_levels I (fill_ghost_single I l w) = num_levels I w) /\
  (forall l c w, num_levels I (fill_ghost_two I l c w) = num_levels I w).

(** What an observer of the pair (level l, level l+1) sees. *)
Inductive symbol :=
| ResetRegister | FineStep (dt : R) | FinePublished | CoarseStep (dt : R) | Corrected | Averaged
| Rebuilt | CoarsePublished.

Definition pair_view1 (l : nat) (e : event) : list symbol :=
  match e with
  | Reset f c => if Nat.eqb f (S l) && Nat.eqb c l then [ResetRegister] else []
  | Step l' dt _ _ => if Nat.eqb l' (S l) then [FineStep dt]
                      else if Nat.eqb l' l then [CoarseStep dt] else []
  | Correct f c _ => if Nat.eqb f (S l) && Nat.eqb c l then [Corrected] else []
  | Average f c => if Nat.eqb f (S l) && Nat.eqb c l then [Averaged] else []
  | Rebuild l' _ => if Nat.eqb l' l then [Rebuilt] else []
  | Publish l' => if Nat.eqb l' (S l) then [FinePublished]
                  else if Nat.eqb l' l then [CoarsePublished] else []
  | _ => []
  end%bool.
Definition pair_view (l : nat) (lg : list event) : list symbol := flat_map (pair_view1 l) lg.

(** One complete step of the coarser level with [n] steps of the finer level ... *)
Definition refined_block (n : nat) (dt : R) : list symbol :=
  [ResetRegister] ++ concat (repeat [FineStep (dt / INR n); FinePublished] n) ++
  [CoarseStep dt; Corrected; Averaged; Rebuilt; CoarsePublished].
(** ... and without a finer level. *)
Definition unrefined_block (dt : R) : list symbol := [CoarseStep dt; CoarsePublished].
