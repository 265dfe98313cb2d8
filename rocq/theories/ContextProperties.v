(** Properties C54, C58: time and cycle bookkeeping of the integrator context. *)
From Coq Require Import Reals List Arith Lia Lra.
From Verif Require Import SplitModel SubcycleModel SubcycleSpec ContextModel ContextSpec ContextProofs ContextExamples.
Import ListNotations.
Local Open Scope R_scope.

(** C54, times.  [quiet]: level 2 and finer do not change grids in the middle of a coarse step; this is
    no restriction for up to three levels.  Regridding from level 0 is arbitrary. *)
Theorem C54_times_agree_partial : forall (U : Type) (code : Code U) max_levels ratio,
  (1 <= ratio)%nat ->
  (forall which, (2 <= which)%nat -> (S which < max_levels)%nat -> keeps_grids code which) ->
  forall freq copy_user T w0 n t w, fresh max_levels T w0 ->
  history (coarse_step code max_levels ratio freq) copy_user w0 n t w ->
  published (T + t) w /\ clocks (T + t) w /\
  forall dt w', coarse_step code max_levels ratio freq dt w = (w', None) -> 0 < dt ->
    forall l, (l < n_hier w')%nat -> ctx_get_time_point w' l = Some (T + t + dt) /\ h_time w' l = T + t + dt.
Proof. exact @C54_lemma. Qed.
Print Assumptions C54_times_agree_partial.

Theorem C54_times_agree_up_to_three_levels : forall (U : Type) (code : Code U) max_levels ratio,
  (1 <= ratio)%nat -> (max_levels <= 3)%nat ->
  forall freq copy_user T w0 n t w, fresh max_levels T w0 ->
  history (coarse_step code max_levels ratio freq) copy_user w0 n t w ->
  published (T + t) w /\ clocks (T + t) w /\
  forall dt w', coarse_step code max_levels ratio freq dt w = (w', None) -> 0 < dt ->
    forall l, (l < n_hier w')%nat -> ctx_get_time_point w' l = Some (T + t + dt) /\ h_time w' l = T + t + dt.
Proof.
  intros U code mx rr Hr Hm.
  exact (C54_lemma code mx rr Hr (fun which H1 H2 => False_ind _ (Nat.lt_irrefl 3
    (Nat.le_trans _ _ _ (Nat.le_trans _ _ _ (le_n_S _ _ (le_n_S _ _ H1)) H2) Hm)))).
Qed.
Print Assumptions C54_times_agree_up_to_three_levels.

(** Without sub-cycling there is no restriction at all. *)
Theorem C54_times_agree_without_subcycling : forall (U : Type) (code : Code U) max_levels ratio
  copy_user T w0 n t w, fresh max_levels T w0 ->
  history (coarse_step_nosub code max_levels ratio) copy_user w0 n t w ->
  published (T + t) w /\ clocks (T + t) w /\
  forall dt w', coarse_step_nosub code max_levels ratio dt w = (w', None) -> 0 < dt ->
    forall l, (l < n_hier w')%nat -> ctx_get_time_point w' l = Some (T + t + dt) /\ h_time w' l = T + t + dt.
Proof. exact @C54_nosub_lemma. Qed.
Print Assumptions C54_times_agree_without_subcycling.

(** With four levels the claim is false: level 2 may regrid in the middle of the step, which sets the
    clock of level 1 back to its published time.  One coarse step of size 1 from time 0. *)
Theorem C54_times_agree_refuted :
  ~ (forall (U : Type) (code : Code U) max_levels ratio, (1 <= ratio)%nat ->
     forall freq T w0, fresh max_levels T w0 ->
     forall dt w', 0 < dt -> coarse_step code max_levels ratio freq dt w0 = (w', None) ->
     forall l t, (l < n_hier w')%nat -> ctx_get_time_point w' l = Some t -> t = T + dt).
Proof.
  intros H. destruct (deep_run 1) as (w' & Hs & Hn & _ & t1 & Ht & Hv & _).
  assert (Hl : (1 < n_hier w')%nat) by (rewrite Hn; lia).
  pose proof (H unit _ 4%nat 2%nat ltac:(lia) 1%nat 0 (ex_world 3) (ex_world_fresh 3 4 ltac:(lia)) 1 w' Rlt_0_1 Hs
    1%nat t1 Hl Ht). lra.
Qed.
Print Assumptions C54_times_agree_refuted.

(** C54, publication: unless it is the last sub-cycle of level [l] in its parent's step, AdvanceLevel(l)
    leaves the published time and cycle number of level [l] alone; it never changes those of coarser
    levels.  [k] is the bound on the recursion depth of the model. *)
Theorem C54_published_after_last_subcycle : forall (U : Type) (code : Code U) max_levels ratio
  k l dt sub w j, (j < l \/ (j = l /\ fst sub <> snd sub - 1))%nat ->
  let w' := fst (advance_level (ctx_integrator code max_levels ratio) k l dt sub w) in
  h_time w' j = h_time w j /\ h_cycles w' j = h_cycles w j.
Proof. exact @C54_publication_lemma. Qed.
Print Assumptions C54_published_after_last_subcycle.

(** C54, cycles of the coarsest level. *)
Theorem C54_coarse_cycles_partial : forall (U : Type) (code : Code U) max_levels ratio,
  (1 <= ratio)%nat ->
  (forall which, (2 <= which)%nat -> (S which < max_levels)%nat -> keeps_grids code which) ->
  forall freq copy_user T w0 n t w, fresh max_levels T w0 ->
  history (coarse_step code max_levels ratio freq) copy_user w0 n t w ->
  h_cycles w 0%nat = (h_cycles w0 0%nat + n)%nat /\
  forall c, ctx_get_cycles w 0 = Some c -> c = (h_cycles w0 0%nat + n)%nat.
Proof. exact @C54_coarse_cycles_lemma. Qed.
Print Assumptions C54_coarse_cycles_partial.

(** C54, cycles of all levels as long as regridding changes nothing. *)
Theorem C54_cycles_partial : forall (U : Type) (code : Code U) max_levels ratio,
  (1 <= ratio)%nat ->
  (forall which, (2 <= which)%nat -> (S which < max_levels)%nat -> keeps_grids code which) ->
  keeps_grids code 0 \/ (max_levels <= 1)%nat ->
  forall freq copy_user T w0 n t w, fresh max_levels T w0 ->
  history (coarse_step code max_levels ratio freq) copy_user w0 n t w ->
  n_hier w = n_hier w0 /\
  (forall l, (l < n_hier w)%nat -> h_cycles w l = (h_cycles w0 l + n * ratio ^ l)%nat) /\
  (forall l c, (l < n_hier w)%nat -> ctx_get_cycles w l = Some c -> c = (h_cycles w0 l + n * ratio ^ l)%nat).
Proof. exact @C54_cycles_lemma. Qed.
Print Assumptions C54_cycles_partial.

(** Rebuilding a level starts its cycle number from zero again. *)
Theorem C54_cycles_refuted :
  ~ (forall (U : Type) (code : Code U) max_levels ratio, (1 <= ratio)%nat ->
     forall freq copy_user T w0 n t w, fresh max_levels T w0 ->
     history (coarse_step code max_levels ratio freq) copy_user w0 n t w -> n_hier w = n_hier w0 ->
     forall l, (l < n_hier w)%nat -> h_cycles w l = (h_cycles w0 l + n * ratio ^ l)%nat).
Proof.
  intros H. destruct rebuild_run as (w & Hh & Hn & Hc).
  assert (Hl : (1 < n_hier w)%nat) by (rewrite Hn; lia).
  pose proof (H unit _ 2%nat 2%nat ltac:(lia) 1%nat _ 0 (ex_world 2) 2%nat _ w (ex_world_fresh 2 2 ltac:(lia)) Hh Hn 1%nat Hl) as E.
  rewrite Hc in E. cbn in E. discriminate.
Qed.
Print Assumptions C54_cycles_refuted.

Example C54_example :
  (1 <= 2)%nat /\ (forall which, (2 <= which)%nat -> (S which < 5)%nat -> keeps_grids (ex_code ex_keep) which) /\
  keeps_grids (ex_code ex_keep) 0 /\
  fresh 5 0 (ex_world 4) /\ (exists w, history (coarse_step (ex_code ex_keep) 5 2 1) (fun u => u) (ex_world 4) 9 (INR 9) w) /\
  fresh 3 0 (ex_world 2) /\ (exists w, history (coarse_step (ex_code ex_churn) 3 2 1) (fun u => u) (ex_world 2) 9 (INR 9) w) /\
  (exists w, history (coarse_step_nosub (ex_code ex_churn) 3 2) (fun u => u) (ex_world 2) 9 (INR 9) w).
Proof.
  exact (conj (le_S _ _ (le_n 1)) (conj (fun which _ _ => ex_keep_keeps which) (conj (ex_keep_keeps 0)
    (conj (ex_world_fresh 4 5 ltac:(lia)) (conj (ex_history _ _ _ _ _ _) (conj (ex_world_fresh 2 3 ltac:(lia))
    (conj (ex_history _ _ _ _ _ _) (ex_history_nosub _ _ _ _ _)))))))).
Qed.

(** C58: a copy of a context carries what has been published, once PreAdvanceHierarchy has run. *)
Theorem C58_copy_partial : forall (U : Type) (code : Code U) copy_user w, (0 < n_hier w)%nat ->
  let w' := ctx_pre_advance_hierarchy code (ctx_copy copy_user w) in
  n_hier w' = n_hier w /\
  forall l, (l < n_hier w)%nat ->
    ctx_get_time_point w' l = Some (h_time w l) /\ ctx_get_cycles w' l = Some (h_cycles w l) /\
    h_time w' l = h_time w l /\ h_cycles w' l = h_cycles w l /\ h_boxes w' l = h_boxes w l.
Proof. exact @C58_copy_lemma. Qed.
Print Assumptions C58_copy_partial.

(** Before that, asking the copy for its time or cycle number reads beyond the end of an empty vector. *)
Theorem C58_copy_can_be_queried_refuted :
  ~ (forall (U : Type) (copy_user : U -> U) w, (0 < n_hier w)%nat ->
     ctx_get_time_point w 0 = Some (h_time w 0%nat) ->
     ctx_get_time_point (ctx_copy copy_user w) 0 = Some (h_time w 0%nat)).
Proof.
  intros H.
  pose proof (H unit (fun u => u) (ctx_pre_advance_hierarchy (ex_code ex_keep) (ex_world 1)) (le_n 1) eq_refl) as E.
  discriminate E.
Qed.
Print Assumptions C58_copy_can_be_queried_refuted.

Example C58_example : (0 < n_hier (ex_world 3))%nat.
Proof. exact (Nat.lt_0_succ 2). Qed.
