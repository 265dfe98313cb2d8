(** Concrete level integrators for the examples; not code of /repo. *)
From Coq Require Import Reals List Arith Lia Lra.
From Verif Require Import SplitModel SubcycleModel SubcycleSpec.
Import ListNotations.
Local Open Scope R_scope.

(** Three levels with ratio 2; the state counts the steps; step number [bad] fails. *)
Definition ex_int (bad : nat) : Integrator nat :=
  {| num_levels := fun _ => 3%nat;
     ratio_to_coarser := fun l => match l with O => 1%nat | S _ => 2%nat end;
     level_stable_dt := fun l _ => 1;
     pre_advance_level := fun _ _ _ w => w;
     reset_coarse_fine_fluxes := fun _ _ w => w;
     advance_nonrecursively := fun l dt s w =>
       (S w, if Nat.eqb w bad then Some (mkTooLarge (1/16) l) else None);
     apply_flux_correction := fun _ _ _ w => w;
     coarsen_conservatively := fun _ _ w => w;
     complete_from_cons := fun _ _ w => w;
     copy_scratch_to_data := fun _ w => w;
     post_advance_level := fun _ _ _ w => (w, None);
     fill_ghost_single := fun _ w => w;
     fill_ghost_two := fun _ _ w => w;
     cycles := fun _ => 1%nat |}.

(** The number of refined levels is the state; PreAdvanceLevel(0) creates level 1. *)
Definition ex_regrid : Integrator nat :=
  {| num_levels := fun w => Nat.min (S w) 2;
     ratio_to_coarser := fun l => match l with O => 1%nat | S _ => 2%nat end;
     level_stable_dt := fun l _ => 1;
     pre_advance_level := fun l _ _ w => match l with O => Nat.max w 1 | _ => w end;
     reset_coarse_fine_fluxes := fun _ _ w => w;
     advance_nonrecursively := fun l dt s w => (w, None);
     apply_flux_correction := fun _ _ _ w => w;
     coarsen_conservatively := fun _ _ w => w;
     complete_from_cons := fun _ _ w => w;
     copy_scratch_to_data := fun _ w => w;
     post_advance_level := fun _ _ _ w => (w, None);
     fill_ghost_single := fun _ w => w;
     fill_ghost_two := fun _ _ w => w;
     cycles := fun _ => 1%nat |}.

Lemma ex_ratios : forall bad l, (1 <= ratio_to_coarser (ex_int bad) l)%nat.
Proof. intros bad [|l]; simpl; lia. Qed.
Lemma ex_bounded : forall bad w, (num_levels (ex_int bad) w <= 3)%nat.
Proof. intros; simpl; lia. Qed.
Lemma ex_fixed : forall bad, fixed_levels (ex_int bad).
Proof. intros; repeat split. Qed.
Lemma ex_regrid_ratios : forall l, (1 <= ratio_to_coarser ex_regrid l)%nat.
Proof. intros [|l]; simpl; lia. Qed.
Lemma ex_regrid_bounded : forall w, (num_levels ex_regrid w <= 2)%nat.
Proof. intros; unfold ex_regrid, num_levels; lia. Qed.
Lemma ex_regrid_ok : regrids_finer_levels ex_regrid.
Proof.
  split; [|repeat split].
  intros l dt s w j Hj. unfold ex_regrid, num_levels, pre_advance_level. destruct l; lia.
Qed.

(** A successful coarse step, ... *)
Lemma ex_success : exists lg w', advance_hierarchy_subcycle (observed (ex_int 100)) 3 4 1 ([], 0%nat) = ((lg, w'), None).
Proof. eexists; eexists. reflexivity. Qed.
Lemma ex_success_nosub : exists lg w', advance_hierarchy_nosub (observed (ex_int 100)) 3 1 ([], 0%nat) = ((lg, w'), None).
Proof. eexists; eexists. reflexivity. Qed.
(** ... one where the second step fails (which is on level 2), ... *)
Lemma ex_failure : exists lg w' e,
  advance_hierarchy_subcycle (observed (ex_int 1)) 3 4 1 ([], 0%nat) = ((lg, w'), Some e) /\
  err_dt e = 1/4 /\ (8 <= length lg)%nat.
Proof.
  eexists; eexists; eexists. split; [reflexivity|]. cbn [err_dt]. simpl. split; [lra|lia].
Qed.
(** ... and one where a level appears. *)
Lemma ex_regrid_success : exists lg w', advance_hierarchy_subcycle (observed ex_regrid) 2 4 1 ([], 0%nat) = ((lg, w'), None)
  /\ num_levels ex_regrid w' = 2%nat.
Proof. eexists; eexists; split; reflexivity. Qed.

Lemma dbl_max_ge_1 : 1 <= dbl_max.
Proof.
  unfold dbl_max.
  assert (H1 : 1 <= 2 ^ 1023) by (apply pow_R1_Rle; lra).
  assert (H2 : 1 <= 2 ^ 52) by (apply pow_R1_Rle; lra).
  assert (H3 : / 2 ^ 52 <= / 1) by (apply Rinv_le_contravar; lra).
  rewrite Rinv_1 in H3. generalize dependent (2 ^ 1023). intros x Hx.
  generalize dependent (/ 2 ^ 52). intros y Hy. nra.
Qed.
