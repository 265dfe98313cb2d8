(** Properties C12-C15: level-recursive solvers. *)
From Coq Require Import Reals List Arith Lia Lra.
From Verif Require Import SplitModel SubcycleModel SubcycleSpec SubcycleProofs NoSubcycleProofs SubcycleExamples.
Import ListNotations.
Local Open Scope R_scope.

(** Statements below talk about [observed I], the integrator [I] with a log of its calls.  Logging does
    not change what the solver does: forgetting the log gives the run with [I] itself. *)
Theorem C12_observation_is_transparent : forall (W : Type) (I : Integrator W) max fr dt lg w,
  advance_hierarchy_subcycle I max fr dt w =
    (snd (fst (advance_hierarchy_subcycle (observed I) max fr dt (lg, w))),
     snd (advance_hierarchy_subcycle (observed I) max fr dt (lg, w))) /\
  advance_hierarchy_nosub I max dt w =
    (snd (fst (advance_hierarchy_nosub (observed I) max dt (lg, w))),
     snd (advance_hierarchy_nosub (observed I) max dt (lg, w))).
Proof.
  intros W I max fr dt lg w.
  exact (conj (eq_sym (forget_hierarchy I max fr dt (lg, w)))
              (eq_sym (forget_advance_nosub I (max - 1) 0 dt (lg, w)))).
Qed.
Print Assumptions C12_observation_is_transparent.

(** C12: level [l] makes as many steps as the product of the ratios up to [l], all of the same size, and
    they add up to dt. *)
Theorem C12_every_level_advances_by_dt : forall (W : Type) (I : Integrator W) max fr,
  (forall l, 1 <= ratio_to_coarser I l)%nat -> (forall w, num_levels I w <= max)%nat -> fixed_levels I ->
  forall dt w lg w', (0 < num_levels I w)%nat ->
  advance_hierarchy_subcycle (observed I) max fr dt ([], w) = ((lg, w'), None) ->
  forall l, (l < num_levels I w)%nat ->
    step_sizes l lg = repeat (dt / INR (ratio_product (ratio_to_coarser I) l)) (ratio_product (ratio_to_coarser I) l) /\
    total (step_sizes l lg) = dt.
Proof. exact @C12_lemma. Qed.
Print Assumptions C12_every_level_advances_by_dt.

Theorem C12_no_step_on_missing_levels : forall (W : Type) (I : Integrator W) max fr,
  (forall w, num_levels I w <= max)%nat -> fixed_levels I ->
  forall dt w lg w', (0 < num_levels I w)%nat ->
  advance_hierarchy_subcycle (observed I) max fr dt ([], w) = ((lg, w'), None) ->
  forall l, (num_levels I w <= l)%nat -> step_sizes l lg = [].
Proof. exact @C12_no_other_lemma. Qed.
Print Assumptions C12_no_step_on_missing_levels.

(** Without sub-cycling each level makes one step of size dt. *)
Theorem C12_without_subcycling : forall (W : Type) (I : Integrator W), fixed_levels I ->
  forall max, (forall w, num_levels I w <= max)%nat ->
  forall dt w lg w', (0 < num_levels I w)%nat ->
  advance_hierarchy_nosub (observed I) max dt ([], w) = ((lg, w'), None) ->
  forall l, step_sizes l lg = if Nat.ltb l (num_levels I w) then [dt] else [].
Proof. exact @C12_nosub_lemma. Qed.
Print Assumptions C12_without_subcycling.

Example C12_example :
  (forall l, 1 <= ratio_to_coarser (ex_int 100) l)%nat /\ (forall w, num_levels (ex_int 100) w <= 3)%nat /\
  fixed_levels (ex_int 100) /\ (0 < num_levels (ex_int 100) 0%nat)%nat /\
  ratio_product (ratio_to_coarser (ex_int 100)) 2 = 4%nat /\
  (exists lg w', advance_hierarchy_subcycle (observed (ex_int 100)) 3 4 1 ([], 0%nat) = ((lg, w'), None)) /\
  (exists lg w', advance_hierarchy_nosub (observed (ex_int 100)) 3 1 ([], 0%nat) = ((lg, w'), None)).
Proof.
  exact (conj (ex_ratios 100) (conj (ex_bounded 100) (conj (ex_fixed 100) (conj (Nat.lt_0_succ 2)
    (conj eq_refl (conj ex_success ex_success_nosub)))))).
Qed.

(** C13: the reported step is the largest one that is stable everywhere, on all ranks (below the largest
    double). *)
Theorem C13_reported_dt_is_stable_everywhere : forall (W : Type) (I : Integrator W),
  (forall l, 1 <= ratio_to_coarser I l)%nat ->
  forall w others dt,
  dt <= mpi_min (subcycle_local_dt I w) (map (subcycle_local_dt I) others) <->
  dt <= dbl_max /\
  forall v l, In v (w :: others) -> (l < num_levels I v)%nat ->
    dt / INR (ratio_product (ratio_to_coarser I) l) <= level_stable_dt I l v.
Proof. exact @C13_iff. Qed.
Print Assumptions C13_reported_dt_is_stable_everywhere.

Theorem C13_without_subcycling : forall (W : Type) (I : Integrator W) w others dt,
  dt <= mpi_min (nosub_local_dt I w) (map (nosub_local_dt I) others) <->
  dt <= dbl_max /\
  forall v l, In v (w :: others) -> (l < num_levels I v)%nat -> dt <= level_stable_dt I l v.
Proof. exact @C13_nosub_iff. Qed.
Print Assumptions C13_without_subcycling.

(** Together with the sizes of all steps: with dt <= ComputeStableDt() every step made is stable with
    respect to the state in which the step size was computed, even if the coarse step fails. *)
Theorem C13_steps_are_stable : forall (W : Type) (I : Integrator W) max fr,
  (forall l, 1 <= ratio_to_coarser I l)%nat ->
  forall w others dt lg w' r,
  dt <= mpi_min (subcycle_local_dt I w) (map (subcycle_local_dt I) others) ->
  advance_hierarchy_subcycle (observed I) max fr dt ([], w) = ((lg, w'), r) ->
  forall l d sub o, In (Step l d sub o) lg -> (l < num_levels I w)%nat -> d <= level_stable_dt I l w.
Proof.
  intros W I max fr Hr w others dt lg w' r Hdt H l d sub o Hin Hl.
  rewrite (every_step_size_lemma I max fr Hr dt w lg w' r H l d sub o (or_introl Hin)).
  exact (proj2 (proj1 (C13_iff I Hr w others dt) Hdt) w l (or_introl eq_refl) Hl).
Qed.
Print Assumptions C13_steps_are_stable.

Example C13_example : (forall l, 1 <= ratio_to_coarser (ex_int 100) l)%nat /\
  1 <= mpi_min (subcycle_local_dt (ex_int 100) 0%nat) (map (subcycle_local_dt (ex_int 100)) [7%nat]) /\
  exists lg w', advance_hierarchy_subcycle (observed (ex_int 100)) 3 4 1 ([], 0%nat) = ((lg, w'), None).
Proof.
  split; [exact (ex_ratios 100)|]. split; [|exact ex_success].
  apply (C13_iff (ex_int 100) (ex_ratios 100)).
  split; [exact dbl_max_ge_1|]. intros v l _ Hl. cbn [level_stable_dt ex_int].
  assert (1 <= INR (ratio_product (ratio_to_coarser (ex_int 100)) l)).
  { change 1 with (INR 1). apply le_INR.
    apply (ratio_product_pos (ratio_to_coarser (ex_int 100)) l (ex_ratios 100)). }
  apply Rmult_le_reg_r with (INR (ratio_product (ratio_to_coarser (ex_int 100)) l)); [lra|].
  unfold Rdiv. rewrite Rmult_assoc, Rinv_l by lra. lra.
Qed.

(** C14: the error of the failing call (which is the last call made) is rescaled once. *)
Theorem C14_error_in_coarse_units : forall (W : Type) (I : Integrator W) max fr,
  (forall l, 1 <= ratio_to_coarser I l)%nat ->
  forall dt w lg w' e',
  advance_hierarchy_subcycle (observed I) max fr dt ([], w) = ((lg, w'), Some e') ->
  exists before x e, lg = before ++ [x] /\ failure x = Some e /\
    (forall y, In y before -> failure y = None) /\
    err_dt e' = err_dt e * INR (ratio_product (ratio_to_coarser I) (err_level e)) /\ err_level e' = 0%nat.
Proof. exact @C14_lemma. Qed.
Print Assumptions C14_error_in_coarse_units.

Theorem C14_success_means_no_failure : forall (W : Type) (I : Integrator W) max fr,
  (forall l, 1 <= ratio_to_coarser I l)%nat ->
  forall dt w lg w', advance_hierarchy_subcycle (observed I) max fr dt ([], w) = ((lg, w'), None) ->
  forall y, In y lg -> failure y = None.
Proof. exact @C14_success_lemma. Qed.
Print Assumptions C14_success_means_no_failure.

(** A retry with the reported size uses the size [d0] demanded by the failing level [l0] on that level. *)
Theorem C14_retry : forall (W : Type) (I : Integrator W) max fr,
  (forall l, 1 <= ratio_to_coarser I l)%nat ->
  forall d0 l0 w lg w' r,
  advance_hierarchy_subcycle (observed I) max fr (d0 * INR (ratio_product (ratio_to_coarser I) l0)) ([], w)
    = ((lg, w'), r) ->
  forall d sub o, In (Step l0 d sub o) lg -> d = d0.
Proof. exact @retry_lemma. Qed.
Print Assumptions C14_retry.

Theorem C14_without_subcycling : forall (W : Type) (I : Integrator W) max dt w lg w' e,
  advance_hierarchy_nosub (observed I) max dt ([], w) = ((lg, w'), Some e) ->
  exists before x, lg = before ++ [x] /\ failure x = Some e /\ (forall y, In y before -> failure y = None).
Proof. exact @C14_nosub_lemma. Qed.
Print Assumptions C14_without_subcycling.

Example C14_example : (forall l, 1 <= ratio_to_coarser (ex_int 1) l)%nat /\
  exists lg w' e, advance_hierarchy_subcycle (observed (ex_int 1)) 3 4 1 ([], 0%nat) = ((lg, w'), Some e) /\
    err_dt e = 1/4 /\ (8 <= length lg)%nat.
Proof. exact (conj (ex_ratios 1) ex_failure). Qed.

(** C15: order of events. *)
Theorem C15_event_order : forall (W : Type) (I : Integrator W) max fr,
  (forall l, 1 <= ratio_to_coarser I l)%nat -> (forall w, num_levels I w <= max)%nat -> fixed_levels I ->
  forall dt w lg w', (0 < num_levels I w)%nat ->
  advance_hierarchy_subcycle (observed I) max fr dt ([], w) = ((lg, w'), None) ->
  forall l, (S l < num_levels I w)%nat ->
    pair_view l lg =
      concat (repeat (refined_block (ratio_to_coarser I (S l)) (dt / INR (ratio_product (ratio_to_coarser I) l)))
                     (ratio_product (ratio_to_coarser I) l)).
Proof. exact @C15_lemma. Qed.
Print Assumptions C15_event_order.

(** The same if finer levels appear and disappear by regridding. *)
Theorem C15_event_order_with_regridding : forall (W : Type) (I : Integrator W) max fr,
  (forall l, 1 <= ratio_to_coarser I l)%nat -> (forall w, num_levels I w <= max)%nat -> regrids_finer_levels I ->
  forall dt w lg w', (0 < num_levels I w)%nat ->
  advance_hierarchy_subcycle (observed I) max fr dt ([], w) = ((lg, w'), None) ->
  forall l, exists blocks, pair_view l lg = concat blocks /\
    (length blocks <= ratio_product (ratio_to_coarser I) l)%nat /\
    Forall (fun b => b = unrefined_block (dt / INR (ratio_product (ratio_to_coarser I) l)) \/
                     b = refined_block (ratio_to_coarser I (S l)) (dt / INR (ratio_product (ratio_to_coarser I) l)))
      blocks.
Proof. exact @C15_dynamic_lemma. Qed.
Print Assumptions C15_event_order_with_regridding.

Example C15_example :
  (forall l, 1 <= ratio_to_coarser (ex_int 100) l)%nat /\ (forall w, num_levels (ex_int 100) w <= 3)%nat /\
  fixed_levels (ex_int 100) /\ (2 < num_levels (ex_int 100) 0%nat)%nat /\
  (exists lg w', advance_hierarchy_subcycle (observed (ex_int 100)) 3 4 1 ([], 0%nat) = ((lg, w'), None)) /\
  (forall l, 1 <= ratio_to_coarser ex_regrid l)%nat /\ (forall w, num_levels ex_regrid w <= 2)%nat /\
  regrids_finer_levels ex_regrid /\ (0 < num_levels ex_regrid 0%nat)%nat /\
  exists lg w', advance_hierarchy_subcycle (observed ex_regrid) 2 4 1 ([], 0%nat) = ((lg, w'), None) /\
    num_levels ex_regrid w' = 2%nat.
Proof.
  exact (conj (ex_ratios 100) (conj (ex_bounded 100) (conj (ex_fixed 100) (conj (Nat.lt_succ_diag_r 2)
    (conj ex_success (conj ex_regrid_ratios (conj ex_regrid_bounded (conj ex_regrid_ok
    (conj (Nat.lt_0_succ 0) ex_regrid_success))))))))).
Qed.
