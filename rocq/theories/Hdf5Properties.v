(** C141: arrays written by the HDF5 output.  C142: states at probes.
    C143: the file as a time series, files of earlier runs. *)
From Coq Require Import Reals ZArith Bool String List Lia Lra Permutation.
Import ListNotations.
From Verif Require Import Hdf5Model Hdf5Spec Hdf5Proofs Hdf5Proofs2.
Local Open Scope R_scope.

(** ** C141 *)

(** An output of the whole grid shows in every cell the value of the finest
    level covering it, for every number of levels, every refinement ratio and
    every distribution of the patches over the ranks, as long as the first
    component (the density) is not zero. *)
Theorem C141_shows_finest_partial : forall ncomp ls i c v,
  nested ls ->
  (forall b l, In (b, l) ls -> disjoint_patches (patches l)) ->
  (forall b l p j, In (b, l) ls -> covers l p j -> pdata p j 0%nat <> 0) ->
  (c < ncomp)%nat ->
  match ls with [] => False | (b, _) :: _ => inside b i end ->
  finest (map snd ls) i c v ->
  gathered ncomp ls i c = v.
Proof. exact gathered_finest. Qed.
Print Assumptions C141_shows_finest_partial.

(** The same for an output restricted to any box of the finest level; the boxes
    for the coarser levels are always large enough. *)
Theorem C141_restricted_shows_finest_partial : forall ncomp b ls i c v,
  (forall l, In l ls -> positive_ratio (ratio l) /\ disjoint_patches (patches l)) ->
  (forall l p j, In l ls -> covers l p j -> pdata p j 0%nat <> 0) ->
  (c < ncomp)%nat -> inside b i ->
  finest ls i c v ->
  restricted_output ncomp b ls i c = v.
Proof.
  intros ncomp b ls i c v H Hz Hc Hb Hf. unfold restricted_output. apply gathered_finest.
  - apply restricted_nested. intros l Hl. apply (H l Hl).
  - intros b' l Hl. apply H. apply (restricted_in ls b b' l Hl).
  - intros b' l p j Hl. apply Hz. apply (restricted_in ls b b' l Hl).
  - exact Hc.
  - destruct ls; [inversion Hf | exact Hb].
  - rewrite restricted_levels. exact Hf.
Qed.
Print Assumptions C141_restricted_shows_finest_partial.

(** If the coarsest level covers every cell there always is a value to show. *)
Theorem C141_something_to_show : forall ls i c l,
  nth_error ls (length ls - 1) = Some l -> (forall j, exists p, covers l p j) -> exists v, finest ls i c v.
Proof. intros ls i c l H1 H2. apply finest_exists. exists l. split; assumption. Qed.
Print Assumptions C141_something_to_show.

(** The written array does not depend on which rank owns which patch, nor on
    the order of the patches; here the values may be zero. *)
Theorem C141_distribution : forall ncomp (ls ls' : list (box * level)),
  Forall2 (fun x y => fst x = fst y /\ ratio (snd x) = ratio (snd y) /\
                      Permutation (patches (snd x)) (patches (snd y))) ls ls' ->
  nested ls -> (forall b l, In (b, l) ls -> disjoint_patches (patches l)) ->
  forall i c, (c < ncomp)%nat -> match ls with [] => False | (b, _) :: _ => inside b i end ->
  gathered ncomp ls i c = gathered ncomp ls' i c.
Proof. exact gathered_perm. Qed.
Print Assumptions C141_distribution.

(** Two levels: two coarse cells, the left one is refined by four fine cells. *)
Definition coarse_patch : patch := mkPatch [(0, 0); (1, 0)]%Z (fun i c => 10 + INR c).
Definition fine_patch (v : R) : patch := mkPatch [(0, 0); (1, 0)]%Z (fun i c => v + INR c).
Definition fine_patch2 (v : R) : patch := mkPatch [(0, 1); (1, 1)]%Z (fun i c => v + INR c).
Definition coarse_level : level := mkLevel [[coarse_patch]; []] (2, 2)%Z.
Definition fine_level (v : R) : level := mkLevel [[fine_patch v]; [fine_patch2 v]] (2, 2)%Z.
Definition two_levels (v : R) : list (box * level) :=
  [(mkBox (0, 0) (3, 1), fine_level v); (mkBox (0, 0) (1, 0), coarse_level)]%Z.

Lemma two_levels_nested : forall v, nested (two_levels v).
Proof.
  intros v. split; [|exact I]. intros i [H1 H2]. unfold inside. cbn in *.
  split; split; (apply Z.div_le_lower_bound || apply Z.lt_succ_r, Z.div_lt_upper_bound); lia.
Qed.

Lemma single_disjoint : forall p, disjoint_patches [p].
Proof. intros p [|x [|y before]] q between r after i E; try discriminate E; cbn in E; injection E as _ E; destruct between; discriminate E. Qed.

Lemma fine_disjoint : forall v, disjoint_patches [fine_patch v; fine_patch2 v].
Proof.
  intros v before p between q after i E Hp Hq. destruct before as [|x [|y before]].
  - cbn in E. injection E as E1 E2. subst p. destruct between as [|z between].
    + injection E2 as E2 E3. subst q. cbn in Hp, Hq. destruct Hp as [<-|[<-|[]]]; destruct Hq as [Hq|[Hq|[]]]; discriminate Hq.
    + injection E2 as E2 E3. destruct between; discriminate E3.
  - cbn in E. injection E as E1 E2 E3. destruct between; discriminate E3.
  - cbn in E. injection E as E1 E2 E3. destruct before; discriminate E3.
Qed.

Lemma two_levels_disjoint : forall v b l, In (b, l) (two_levels v) -> disjoint_patches (patches l).
Proof.
  intros v b l [E|[E|[]]]; injection E as _ <-; [apply fine_disjoint | apply single_disjoint].
Qed.

(** The cell (1, 1) is refined, the cell (3, 0) is not. *)
Example C141_example :
  gathered 2 (two_levels 20) (1, 1)%Z 1%nat = 21 /\ gathered 2 (two_levels 20) (3, 0)%Z 1%nat = 11.
Proof.
  assert (Z0 : forall b l p j, In (b, l) (two_levels 20) -> covers l p j -> pdata p j 0%nat <> 0).
  { intros b l p j [E|[E|[]]] [Hp Hj]; injection E as _ <-; cbn in Hp.
    - destruct Hp as [<-|[<-|[]]]; cbn; lra.
    - destruct Hp as [<-|[]]; cbn; lra. }
  split.
  - rewrite (gathered_finest 2 (two_levels 20) (1, 1)%Z 1 (pdata (fine_patch2 20) (1, 1)%Z 1)).
    + cbn. lra.
    + apply two_levels_nested.
    + apply two_levels_disjoint.
    + exact Z0.
    + lia.
    + unfold inside. cbn. lia.
    + apply finest_here. split; cbn; auto.
  - rewrite (gathered_finest 2 (two_levels 20) (3, 0)%Z 1 (pdata coarse_patch (1, 0)%Z 1)).
    + cbn. lra.
    + apply two_levels_nested.
    + apply two_levels_disjoint.
    + exact Z0.
    + lia.
    + unfold inside. cbn. lia.
    + apply finest_below.
      * intros p [Hp Hi]. cbn in Hp. destruct Hp as [<-|[<-|[]]]; cbn in Hi; destruct Hi as [Hi|[Hi|[]]]; discriminate Hi.
      * apply (finest_here coarse_level [] coarse_patch (1, 0)%Z 1%nat). split; cbn; auto.
Qed.

(** Zero in the first component means "not covered" to the code: a refined cell
    in which this component is zero shows all components of the coarser level. *)
Theorem C141_zero_marker_refuted :
  ~ (forall ncomp ls i c v, nested ls ->
       (forall b l, In (b, l) ls -> disjoint_patches (patches l)) ->
       (c < ncomp)%nat -> match ls with [] => False | (b, _) :: _ => inside b i end ->
       finest (map snd ls) i c v -> gathered ncomp ls i c = v).
Proof.
  intros H.
  assert (F : gathered 2 (two_levels 0) (1, 1)%Z 1%nat = 0 + INR 1).
  { apply (H 2%nat (two_levels 0) (1, 1)%Z 1%nat).
    - apply two_levels_nested.
    - apply two_levels_disjoint.
    - lia.
    - unfold inside. cbn. lia.
    - change (0 + INR 1) with (pdata (fine_patch2 0) (1, 1)%Z 1). apply finest_here. split; cbn; auto. }
  cbn [gathered two_levels] in F. rewrite fill_value in F; [|unfold inside; cbn; lia | lia].
  assert (E : forall k, reduce (map (local_fab (mkBox (0, 0) (3, 1))%Z) (ranks (fine_level 0))) (1, 1)%Z k = 0 + INR k).
  { intros k. apply (reduce_one _ (ranks (fine_level 0)) (1, 1)%Z k (fine_patch2 0)).
    - apply (fine_disjoint 0).
    - cbn; auto.
    - cbn; auto.
    - unfold inside. cbn. lia. }
  rewrite !E in F. destruct (Req_EM_T (0 + INR 0) 0) as [_|N]; [|cbn in N; lra].
  change (coarsen (ratio (fine_level 0)) (1, 1)%Z) with (0, 0)%Z in F.
  rewrite (reduce_one _ (ranks coarse_level) (0, 0)%Z 1 coarse_patch) in F.
  - cbn in F. lra.
  - apply single_disjoint.
  - cbn; auto.
  - cbn; auto.
  - unfold inside. cbn. lia.
Qed.
Print Assumptions C141_zero_marker_refuted.

(** The attribute xlower is the lower corner of the domain.  With it the array of
    a restricted output is located correctly exactly if the box begins at the
    first cell of the domain. *)
Theorem C141_xlower_partial : forall prob_lo dx b k, 0 < dx ->
  (written_xlower prob_lo dx b + IZR k * dx = prob_lo + IZR (fst (lo b) + k) * dx <-> fst (lo b) = 0%Z).
Proof.
  intros prob_lo dx b k Hd. unfold written_xlower. rewrite plus_IZR. split.
  - intros H. apply eq_IZR. apply (Rmult_eq_reg_r dx); lra.
  - intros ->. lra.
Qed.
Print Assumptions C141_xlower_partial.

Theorem C141_xlower_refuted :
  ~ (forall prob_lo dx b k, 0 < dx -> written_xlower prob_lo dx b + IZR k * dx = prob_lo + IZR (fst (lo b) + k) * dx).
Proof.
  intros H. pose proof (proj1 (C141_xlower_partial 0 1 (mkBox (4, 0) (5, 0))%Z 0 ltac:(lra)) (H 0 1 _ 0%Z ltac:(lra))) as E.
  cbn in E. discriminate.
Qed.
Print Assumptions C141_xlower_refuted.

(** The order of the cells in the file: read as rows of length nx, as the scripts
    of the project do, the slab gives back every cell. *)
Theorem C141_axes_reshaped : forall nx ny f c a b, (a < nx)%nat -> (b < ny)%nat ->
  reshaped_entry nx ny (fab_memory nx ny f) c b a = f a b c.
Proof.
  intros nx ny f c a b Ha Hb. unfold reshaped_entry, fab_memory.
  assert (E1 : ((c * (ny * nx) + (b * nx + a)) / nx = c * ny + b)%nat).
  { replace (c * (ny * nx) + (b * nx + a))%nat with (a + (c * ny + b) * nx)%nat by ring.
    rewrite PeanoNat.Nat.div_add by lia. rewrite PeanoNat.Nat.div_small by lia. lia. }
  assert (E2 : ((c * (ny * nx) + (b * nx + a)) mod nx = a)%nat).
  { replace (c * (ny * nx) + (b * nx + a))%nat with (a + (c * ny + b) * nx)%nat by ring.
    rewrite PeanoNat.Nat.mod_add by lia. apply PeanoNat.Nat.mod_small. exact Ha. }
  assert (E3 : ((c * ny + b) mod ny = b)%nat).
  { rewrite PeanoNat.Nat.add_comm, PeanoNat.Nat.mod_add by lia. apply PeanoNat.Nat.mod_small. exact Hb. }
  assert (E4 : ((c * (ny * nx) + (b * nx + a)) / (nx * ny) = c)%nat).
  { rewrite <- PeanoNat.Nat.div_div by lia. rewrite E1.
    rewrite PeanoNat.Nat.add_comm, PeanoNat.Nat.div_add by lia. rewrite PeanoNat.Nat.div_small by lia. lia. }
  rewrite E1, E2, E3, E4. reflexivity.
Qed.
Print Assumptions C141_axes_reshaped.

(** Read with the extents (nx, ny) which the file declares, entry [a][b] is not the
    cell (a, b), nor in general the cell (b, a). *)
Theorem C141_axes_declared_refuted :
  ~ (forall nx ny f c a b, (a < nx)%nat -> (b < ny)%nat -> declared_entry nx ny (fab_memory nx ny f) c a b = f a b c) /\
  ~ (forall nx ny f c a b, (a < nx)%nat -> (b < ny)%nat -> exists a' b', a' = b /\ b' = a /\
       declared_entry nx ny (fab_memory nx ny f) c a b = f a' b' c).
Proof.
  split; intros H.
  - pose proof (H 2%nat 3%nat (fun a b _ => INR (a + 10 * b)) 0%nat 0%nat 1%nat ltac:(lia) ltac:(lia)) as E.
    unfold declared_entry, fab_memory in E. cbn in E. lra.
  - destruct (H 2%nat 3%nat (fun a b _ => INR (a + 10 * b)) 0%nat 1%nat 0%nat ltac:(lia) ltac:(lia)) as [a' [b' [Ea [Eb E]]]].
    subst a' b'. unfold declared_entry, fab_memory in E. cbn in E. lra.
Qed.
Print Assumptions C141_axes_declared_refuted.

(** Cut cells, one rank: volume fractions and states are those of the finest level
    (volume fractions also in the ghost cells of its patches); cells without
    fluid show zero. *)
Theorem C141_cut_cells_partial : forall ncomp ls i,
  (0 < ncomp)%nat -> cut_nested ls ->
  (forall b l, In (b, l) ls -> exists ps, cranks l = [ps]) ->
  (forall b l, In (b, l) ls -> consistent_alpha l) ->
  (forall b l, In (b, l) ls -> disjoint_patches (map as_patch (cpatches l))) ->
  (forall b l p j, In (b, l) ls -> In p (cpatches l) -> In j (valid p) -> In j (grown p)) ->
  (forall b l p j, In (b, l) ls -> In p (cpatches l) -> In j (valid p) -> 0 < alpha p j -> cdata p j 0%nat <> 0) ->
  match ls with [] => False | (b, _) :: _ => inside b i end ->
  (forall a, finest_alpha (map snd ls) i a -> cut_gathered false ncomp ls i ncomp = a) /\
  (forall c v, (c < ncomp)%nat -> finest_cut (map snd ls) i c v -> cut_gathered false ncomp ls i c = v).
Proof.
  intros ncomp ls i Hn Hnest H1 Ha Hd Hg Hz Hb. split.
  - intros a. apply cut_one_rank_alpha; assumption.
  - intros c v Hc. apply cut_one_rank_data; assumption.
Qed.
Print Assumptions C141_cut_cells_partial.

(** Restricted outputs with cut cells, any number of ranks: cells of the finest
    level are shown, all other cells are zero in every component, although the
    coarser levels have values there. *)
Theorem C141_cut_restricted_partial : forall ncomp b l x coarser i,
  (0 < ncomp)%nat -> inside b i -> disjoint_patches (map as_patch (cpatches l)) ->
  (forall p j, In p (cpatches l) -> In j (valid p) -> 0 < alpha p j -> cdata p j 0%nat <> 0) ->
  (forall p, In p (cpatches l) -> In i (valid p) ->
     cut_gathered true ncomp ((b, l) :: x :: coarser) i ncomp = alpha p i /\
     forall c, (c < ncomp)%nat -> cut_gathered true ncomp ((b, l) :: x :: coarser) i c = cdata p i c) /\
  ((forall p, In p (cpatches l) -> ~ In i (valid p)) ->
     forall c, (c <= ncomp)%nat -> cut_gathered true ncomp ((b, l) :: x :: coarser) i c = 0).
Proof.
  intros ncomp b l x coarser i Hn Hb Hd Hz.
  set (f := reduce (map (cut_local true ncomp b zero_fab) (cranks l))).
  assert (E : forall c, cut_gathered true ncomp ((b, l) :: x :: coarser) i c =
    cut_fill ncomp b (cratio l) (cut_gathered true ncomp (x :: coarser)) f i c).
  { intros c. unfold f. rewrite <- cut_locals_zero. reflexivity. }
  split.
  - intros p Hp Hi. destruct (restricted_reduce_one ncomp b (cranks l) i p Hb Hd Hp Hi) as [F1 F2]. fold f in F1, F2.
    split.
    + rewrite E, cut_fill_alpha by assumption. exact F2.
    + intros c Hc. rewrite E, cut_fill_value by assumption. rewrite (F1 c Hc), (F1 0%nat Hn), F2.
      destruct (Req_EM_T (cdata p i 0%nat) 0) as [H0|_]; [|reflexivity].
      destruct (Rlt_dec 0 (alpha p i)) as [H1|_]; [|reflexivity]. exfalso. apply (Hz p i Hp Hi H1 H0).
  - intros Hnot c Hc.
    assert (F : forall k, (k <= ncomp)%nat -> f i k = 0).
    { intros k Hk. apply restricted_reduce_none; assumption. }
    rewrite E. destruct (PeanoNat.Nat.eq_dec c ncomp) as [->|Hne].
    + rewrite cut_fill_alpha by assumption. apply F. lia.
    + rewrite cut_fill_value by (try assumption; lia). rewrite (F c Hc), (F ncomp ltac:(lia)).
      destruct (Req_EM_T (f i 0%nat) 0); [|reflexivity]. destruct (Rlt_dec 0 0); [lra | reflexivity].
Qed.
Print Assumptions C141_cut_restricted_partial.

(** A wall-free hierarchy: all volume fractions are one. *)
Definition cpatch_of (cells ghost : list cell) (v : R) : cpatch :=
  mkCpatch cells ghost (fun i c => v + INR c) (fun _ => 1).

Definition cut_coarse : clevel := mkClevel [[cpatch_of [(0, 0); (1, 0)] [(0, 0); (1, 0)] 10]; []]%Z (2, 2)%Z.
Definition cut_fine (ghost : list cell) (second : bool) : clevel :=
  let p := cpatch_of [(0, 0)]%Z ghost 20 in
  mkClevel (if second then [[]; [p]] else [[p]; []]) (2, 2)%Z.
Definition cut_two (second : bool) : list (box * clevel) :=
  [(mkBox (0, 0) (3, 1), cut_fine [(0, 0)] second); (mkBox (0, 0) (1, 0), cut_coarse)]%Z.

Lemma alpha_second : forall second, cut_gathered false 1 (cut_two second) (0, 0)%Z 1%nat = if second then 2 else 1.
Proof.
  intros second. unfold cut_two. cbn [cut_gathered]. cbv zeta.
  rewrite cut_fill_alpha; [|unfold inside; cbn; lia | lia].
  destruct second; cbn; unfold zero_fab; lra.
Qed.

(** With several ranks the volume fraction of a refined cell is the one of the
    coarse cell added to its own if the patch does not belong to rank 0. *)
Theorem C141_cut_ranks_refuted :
  ~ (forall ncomp ls i a, (0 < ncomp)%nat -> cut_nested ls ->
       (forall b l, In (b, l) ls -> consistent_alpha l) ->
       match ls with [] => False | (b, _) :: _ => inside b i end ->
       finest_alpha (map snd ls) i a -> cut_gathered false ncomp ls i ncomp = a).
Proof.
  intros H. pose proof (H 1%nat (cut_two true) (0, 0)%Z 1) as F. rewrite (alpha_second true) in F.
  assert (X : 2 = 1); [|lra]. apply F.
  - lia.
  - split; [|exact I]. intros i [H1 H2]. unfold inside. cbn in *.
    split; split; (apply Z.div_le_lower_bound || apply Z.lt_succ_r, Z.div_lt_upper_bound); lia.
  - intros b l [E|[E|[]]] p q i Hp Hq; injection E as _ <-; cbn in Hp, Hq;
      destruct Hp as [<-|[]]; destruct Hq as [<-|[]]; reflexivity.
  - unfold inside. cbn. lia.
  - change 1 with (alpha (cpatch_of [(0, 0)] [(0, 0)] 20)%Z (0, 0)%Z) at 1. apply alpha_here; cbn; auto.
Qed.
Print Assumptions C141_cut_ranks_refuted.

(** Even with a single level the ghost cells of the volume fractions are added to
    the cells of the neighbour on another rank. *)
Definition ghost_level : clevel :=
  mkClevel [[cpatch_of [(0, 0)] [(0, 0); (1, 0)] 10]; [cpatch_of [(1, 0)] [(0, 0); (1, 0)] 10]]%Z (2, 2)%Z.

Theorem C141_cut_ghosts_refuted :
  cut_gathered false 1 [(mkBox (0, 0) (1, 0), ghost_level)]%Z (0, 0)%Z 1%nat = 2 /\
  finest_alpha [ghost_level] (0, 0)%Z 1.
Proof.
  split.
  - cbn. lra.
  - change 1 with (alpha (cpatch_of [(0, 0)] [(0, 0); (1, 0)] 10)%Z (0, 0)%Z) at 1. apply alpha_here; cbn; auto.
Qed.
Print Assumptions C141_cut_ghosts_refuted.

(** On rank 0 alone the same hierarchy is shown correctly. *)
Example C141_cut_example : cut_gathered false 1 (cut_two false) (0, 0)%Z 1%nat = 1.
Proof. exact (alpha_second false). Qed.

(** Hypotheses of the restricted case: the refined cell shows 20, its neighbour 0. *)
Example C141_cut_restricted_example :
  cut_gathered true 1 (cut_two true) (0, 0)%Z 0%nat = 20 /\ cut_gathered true 1 (cut_two true) (3, 0)%Z 0%nat = 0.
Proof.
  assert (D : disjoint_patches (map as_patch (cpatches (cut_fine [(0, 0)%Z] true)))) by apply single_disjoint.
  assert (N : forall p j, In p (cpatches (cut_fine [(0, 0)%Z] true)) -> In j (valid p) -> 0 < alpha p j -> cdata p j 0%nat <> 0).
  { intros p j [<-|[]] _ _. cbn. lra. }
  split.
  - destruct (C141_cut_restricted_partial 1 (mkBox (0, 0) (3, 1))%Z (cut_fine [(0, 0)%Z] true)
      (mkBox (0, 0) (1, 0), cut_coarse)%Z [] (0, 0)%Z) as [A _]; [lia | unfold inside; cbn; lia | exact D | exact N|].
    destruct (A (cpatch_of [(0, 0)] [(0, 0)] 20)%Z) as [_ B]; [cbn; auto | cbn; auto|].
    unfold cut_two. rewrite (B 0%nat) by lia. cbn. lra.
  - destruct (C141_cut_restricted_partial 1 (mkBox (0, 0) (3, 1))%Z (cut_fine [(0, 0)%Z] true)
      (mkBox (0, 0) (1, 0), cut_coarse)%Z [] (3, 0)%Z) as [_ A]; [lia | unfold inside; cbn; lia | exact D | exact N|].
    apply A; [|lia]. intros p [<-|[]] [E|[]]. discriminate E.
Qed.

(** ** C142 *)

(** The state recorded for a probe is the one of the finest level around it, for
    every number of levels and ranks, for components that are nowhere zero. *)
Theorem C142_finest_state_partial : forall ls xs k x c v,
  (forall l, In l ls -> 0 < fst (dx l) /\ 0 < snd (dx l)) ->
  (forall l, In l ls -> disjoint_patches (gpatches l)) ->
  (forall l p i, In l ls -> In p (gpatches l) -> In i (pcells p) -> pdata p i c <> 0) ->
  nth_error xs k = Some x -> seen ls x c v ->
  exists s, nth_error (gather_states ls xs) k = Some s /\ s c = v.
Proof.
  intros ls xs k x c v Hdx Hd Hz Hk Hs. exists (gather_state ls x). split.
  - unfold gather_states. apply map_nth_error. exact Hk.
  - apply gather_seen; [|exact Hz | exact Hs]. intros l Hl. split; [apply Hdx; exact Hl | apply Hd; exact Hl].
Qed.
Print Assumptions C142_finest_state_partial.

(** With a single level also zeros are recorded. *)
Theorem C142_one_level : forall l x c v, 0 < fst (dx l) /\ 0 < snd (dx l) -> disjoint_patches (gpatches l) ->
  seen [l] x c v -> gather_state [l] x c = v.
Proof.
  intros l x c v HD Hd Hs. inversion Hs as [l' ls' p i x' c' Hp Hi Hc|l' ls' x' c' v' Hnot Hbelow]; subst; [|inversion Hbelow].
  apply (probe_one l x c p i HD Hd Hp Hi Hc).
Qed.
Print Assumptions C142_one_level.

(** A point outside of all patches is recorded as zero. *)
Theorem C142_outside : forall ls x c,
  (forall l p i, In l ls -> In p (gpatches l) -> In i (pcells p) -> ~ contains l i x) -> gather_state ls x c = 0.
Proof.
  induction ls as [|l ls IH]; intros x c H; [reflexivity|].
  pose proof (probe_none l x c (fun p i => H l p i (or_introl eq_refl))) as E. cbn [gather_state].
  destruct ls as [|l' ls]; [exact E|]. rewrite E. destruct (Req_EM_T 0 0); [|reflexivity].
  apply IH. intros k p i Hk. apply H. right. exact Hk.
Qed.
Print Assumptions C142_outside.

Definition probe_patch (d : cell -> nat -> R) : patch := mkPatch [(0, 0)]%Z d.
Definition probe_coarse : glevel := mkGlevel [[]; [probe_patch (fun _ c => 1 + INR c)]] (0, 0) (1, 1).
Definition probe_fine (m : R) : glevel :=
  mkGlevel [[probe_patch (fun _ c => match c with O => 5 | Datatypes.S _ => m end)]; []] (0, 0) (/ 2, / 2).

Lemma probe_in_fine : forall m, contains (probe_fine m) (0, 0)%Z (/ 4, / 4).
Proof. intros m. unfold contains. cbn. lra. Qed.

Lemma probe_dx : forall m l, In l [probe_fine m; probe_coarse] -> 0 < fst (dx l) /\ 0 < snd (dx l).
Proof. intros m l [<-|[<-|[]]]; cbn; lra. Qed.

Lemma probe_disjoint : forall m l, In l [probe_fine m; probe_coarse] -> disjoint_patches (gpatches l).
Proof. intros m l [<-|[<-|[]]]; apply single_disjoint. Qed.

Example C142_example : gather_state [probe_fine 7; probe_coarse] (/ 4, / 4) 1%nat = 7.
Proof.
  apply gather_seen.
  - intros l Hl. split; [apply (probe_dx 7 l Hl) | apply (probe_disjoint 7 l Hl)].
  - intros l p i [<-|[<-|[]]] [<-|[]] _; cbn; lra.
  - change 7 with (pdata (probe_patch (fun _ c => match c with O => 5 | Datatypes.S _ => 7 end)) (0, 0)%Z 1%nat) at 2.
    apply seen_here; [cbn; auto | cbn; auto | apply probe_in_fine].
Qed.

(** A component which is zero in the finest cell, such as the momentum of gas at
    rest, is taken from the coarser level: the recorded state mixes two levels. *)
Theorem C142_zero_component_refuted :
  ~ (forall ls x c v, (forall l, In l ls -> 0 < fst (dx l) /\ 0 < snd (dx l)) ->
       (forall l, In l ls -> disjoint_patches (gpatches l)) ->
       seen ls x c v -> gather_state ls x c = v) /\
  gather_state [probe_fine 0; probe_coarse] (/ 4, / 4) 0%nat = 5 /\
  gather_state [probe_fine 0; probe_coarse] (/ 4, / 4) 1%nat = 2.
Proof.
  assert (EF : forall c, probe_level (probe_fine 0) (/ 4, / 4) c = match c with O => 5 | Datatypes.S _ => 0 end).
  { intros c. apply (probe_one (probe_fine 0) (/ 4, / 4) c (probe_patch (fun _ c => match c with O => 5 | Datatypes.S _ => 0 end)) (0, 0)%Z).
    - apply (probe_dx 0). left. reflexivity.
    - apply (probe_disjoint 0). left. reflexivity.
    - cbn; auto.
    - cbn; auto.
    - apply probe_in_fine. }
  assert (EC : forall c, probe_level probe_coarse (/ 4, / 4) c = 1 + INR c).
  { intros c. apply (probe_one probe_coarse (/ 4, / 4) c (probe_patch (fun _ c => 1 + INR c)) (0, 0)%Z).
    - apply (probe_dx 0). right. left. reflexivity.
    - apply (probe_disjoint 0). right. left. reflexivity.
    - cbn; auto.
    - cbn; auto.
    - unfold contains. cbn. lra. }
  assert (E1 : gather_state [probe_fine 0; probe_coarse] (/ 4, / 4) 1%nat = 2).
  { cbn [gather_state]. rewrite EF, EC. destruct (Req_EM_T 0 0); [cbn; lra | congruence]. }
  split; [|split; [|exact E1]].
  - intros H. assert (X : gather_state [probe_fine 0; probe_coarse] (/ 4, / 4) 1%nat = 0).
    { apply H; [apply probe_dx | apply probe_disjoint |].
      change 0 with (pdata (probe_patch (fun _ c => match c with O => 5 | Datatypes.S _ => 0 end)) (0, 0)%Z 1%nat) at 2.
      apply seen_here; [cbn; auto | cbn; auto | apply probe_in_fine]. }
    lra.
  - cbn [gather_state]. rewrite EF. destruct (Req_EM_T 5 0); [lra | reflexivity].
Qed.
Print Assumptions C142_zero_component_refuted.

(** Every tube should get its own part of the configured coordinates; all get the
    first part. *)
Theorem C142_tubes_refuted :
  ~ (forall n xs tube, (tube < n)%nat -> tube_probes n xs tube = configured_probes n xs tube).
Proof.
  intros H. pose proof (H 2%nat [(0, 0); (1, 0)] 1%nat ltac:(lia)) as E.
  unfold tube_probes, configured_probes in E. cbn in E. injection E as E1. lra.
Qed.
Print Assumptions C142_tubes_refuted.

(** ** C143 *)

(** Any number of outputs to a new path: entry k of every data set belongs to
    output k. *)
Theorem C143_series : forall A (o : output A) os, write_all None (o :: os) = Some (series (o :: os)).
Proof. exact write_all_new. Qed.
Print Assumptions C143_series.

(** If the process ends at any call of the library during an output, everything
    written before is intact, an entry in /cycles implies complete and matching
    entries in /data and /times, and the lengths differ by at most one. *)
Theorem C143_crash : forall A n (old : list (output A)) o f,
  write_and_crash n (match old with [] => None | _ :: _ => Some (series old) end) o = Some f ->
  (forall k p, nth_error old k = Some p ->
     entry_at (fdata f) k = Some (slab p) /\ entry_at (ftimes f) k = Some (time_point p) /\
     entry_at (fcycles f) k = Some (cycle p)) /\
  (forall k z, entry_at (fcycles f) k = Some z ->
     exists p, nth_error (old ++ [o]) k = Some p /\ z = cycle p /\
       entry_at (fdata f) k = Some (slab p) /\ entry_at (ftimes f) k = Some (time_point p)) /\
  (entries (fcycles f) <= entries (ftimes f) <= entries (fdata f))%nat /\
  (length old <= entries (fcycles f))%nat /\ (entries (fdata f) <= length old + 1)%nat.
Proof.
  intros A n old o f H. destruct old as [|p0 old'].
  - pose proof (create_crash_states A n o) as C. cbv zeta in C. rewrite H in C.
    destruct C as [C|[C|[C|[C|[C|[C|[C|C]]]]]]]; try discriminate C; injection C as ->; cbn [fdata ftimes fcycles entries length];
      (split; [intros [|k] p Hk; discriminate Hk|]; split; [|split; [|split]; lia]);
      intros [|[|k]] z Hz; try discriminate Hz; cbn in Hz; try (injection Hz as <-; exists o; repeat split).
  - change (write_and_crash n (Some (series (p0 :: old'))) o = Some f) in H.
    remember (p0 :: old') as old eqn:Eold. clear Eold p0 old'. pose proof (crash_states A n old o) as C. cbv zeta in C. rewrite H in C.
    assert (KEEP : forall B (g : output A -> B) k p x, nth_error old k = Some p ->
       entry_at (Some (map (fun p => Some (g p)) old ++ [x])) k = Some (g p)).
    { intros B g k p x Hk. cbn [entry_at]. rewrite nth_error_app1.
      - rewrite (map_nth_error (fun p => Some (g p)) k old Hk). reflexivity.
      - rewrite map_length. apply nth_error_Some. congruence. }
    assert (KEEP0 : forall B (g : output A -> B) k p, nth_error old k = Some p ->
       entry_at (Some (map (fun p => Some (g p)) old)) k = Some (g p)).
    { intros B g k p Hk. rewrite entry_map, Hk. reflexivity. }
    assert (LEN : forall B (g : output A -> B), length (map (fun p => Some (g p)) old) = length old) by (intros; apply map_length).
    assert (OLD : forall k p, nth_error old k = Some p -> nth_error (old ++ [o]) k = Some p).
    { intros k p Hk. rewrite nth_error_app1; [exact Hk|]. apply nth_error_Some. congruence. }
    assert (FIRST : forall d t c,
      (d = Some (map (fun p => Some (slab p)) old) \/ exists x, d = Some (map (fun p => Some (slab p)) old ++ [x])) ->
      (t = Some (map (fun p => Some (time_point p)) old) \/ exists x, t = Some (map (fun p => Some (time_point p)) old ++ [x])) ->
      (c = Some (map (fun p => Some (cycle p)) old) \/ exists x, c = Some (map (fun p => Some (cycle p)) old ++ [x])) ->
      forall k p, nth_error old k = Some p ->
        entry_at d k = Some (slab p) /\ entry_at t k = Some (time_point p) /\ entry_at c k = Some (cycle p)).
    { intros d t c [->|[x ->]] [->|[y ->]] [->|[w ->]] k p Hk; repeat split; first [apply KEEP0; exact Hk | apply KEEP; exact Hk]. }
    assert (SECOND : forall d t c,
      (d = Some (map (fun p => Some (slab p)) old) \/ exists x, d = Some (map (fun p => Some (slab p)) old ++ [x])) ->
      (t = Some (map (fun p => Some (time_point p)) old) \/ exists x, t = Some (map (fun p => Some (time_point p)) old ++ [x])) ->
      (c = Some (map (fun p => Some (cycle p)) old) \/ c = Some (map (fun p => Some (cycle p)) old ++ [None])) ->
      forall k z, entry_at c k = Some z -> exists p, nth_error (old ++ [o]) k = Some p /\ z = cycle p /\
       entry_at d k = Some (slab p) /\ entry_at t k = Some (time_point p)).
    { intros d t c Hd Ht Hc k z Hz.
      assert (Hz' : entry_at (Some (map (fun p => Some (cycle p)) old)) k = Some z).
      { destruct Hc as [->| ->]; [exact Hz | rewrite entry_pad in Hz; exact Hz]. }
      rewrite entry_map in Hz'. destruct (nth_error old k) as [p|] eqn:Ek; [|discriminate Hz']. cbn in Hz'. injection Hz' as <-.
      exists p. split; [apply OLD; exact Ek|]. split; [reflexivity|].
      destruct (FIRST d t (Some (map (fun p => Some (cycle p)) old)) Hd Ht (or_introl eq_refl) k p Ek) as [F1 [F2 _]].
      split; assumption. }
    destruct C as [C|[C|[C|[C|[C|[C|C]]]]]]; injection C as ->; cbn [fdata ftimes fcycles];
      (split; [apply FIRST; eauto|]; split; [first [apply SECOND; now eauto | idtac] | cbn [entries]; rewrite ?app_length, ?map_length; cbn [length]; lia]).
    intros k z Hz.
    assert (EQ : forall B (g : output A -> B), map (fun p => Some (g p)) old ++ [Some (g o)] = map (fun p => Some (g p)) (old ++ [o])).
    { intros. rewrite map_app. reflexivity. }
    rewrite (EQ Z cycle), entry_map in Hz. destruct (nth_error (old ++ [o]) k) as [p|] eqn:Ek; [|discriminate Hz].
    cbn in Hz. injection Hz as <-. exists p. split; [reflexivity|]. split; [reflexivity|].
    rewrite (EQ A slab), (EQ R time_point), !entry_map, Ek. split; reflexivity.
Qed.
Print Assumptions C143_crash.

Definition out (k : nat) : output nat := mkOutput k (INR k) (Z.of_nat k).

(** Ended after the slab of the second output is written. *)
Example C143_crash_example : exists f,
  write_and_crash 2 (Some (series [out 1])) (out 2) = Some f /\
  entries (fdata f) = 2%nat /\ entries (ftimes f) = 1%nat /\ entry_at (fdata f) 1 = Some 2%nat /\ entry_at (fcycles f) 1 = None.
Proof. eexists. split; [reflexivity | cbn; repeat split; reflexivity]. Qed.

(** A file is not repaired: if a later run appends to it, data and time points do
    not belong together any more. *)
Theorem C143_resume_refuted :
  ~ (forall n (old : list (output nat)) o new f, old <> [] ->
       write_to_hdf5 (write_and_crash n (Some (series old)) o) new = Some f ->
       forall k a t, entry_at (fdata f) k = Some a -> entry_at (ftimes f) k = Some t ->
         exists p, In p (old ++ [o; new]) /\ slab p = a /\ time_point p = t).
Proof.
  intros H.
  destruct (write_to_hdf5 (write_and_crash 2 (Some (series [out 1])) (out 2)) (out 3)) as [f|] eqn:E; [|discriminate E].
  pose proof (H 2%nat [out 1] (out 2) (out 3) f ltac:(discriminate) E 1%nat 2%nat (INR 3)) as X.
  cbn -[INR] in E. injection E as <-. destruct X as [p [Hp [E1 E2]]]; [reflexivity | reflexivity|].
  cbn [app In] in Hp. destruct Hp as [<-|[<-|[<-|[]]]]; cbn in E1, E2; try discriminate E1. lra.
Qed.
Print Assumptions C143_resume_refuted.

(** A slab of the size the file was created with is stored unchanged. *)
Theorem C143_shape_partial : forall n m, length m = n -> stored_slab n m = Some m.
Proof. intros n m <-. unfold stored_slab. rewrite PeanoNat.Nat.ltb_irrefl, firstn_all. reflexivity. Qed.
Print Assumptions C143_shape_partial.

(** If the number of levels changes between two outputs, the array has another
    size: the slab is cut off, or memory behind the array is read. *)
Theorem C143_levels_refuted :
  ~ (forall n m, stored_slab n m = Some m) /\
  (forall n m, (n < length m)%nat -> exists s, stored_slab n m = Some s /\ length s = n) /\
  (forall n m, (length m < n)%nat -> stored_slab n m = None).
Proof.
  split; [|split].
  - intros H. pose proof (H 1%nat [1; 2; 3; 4]) as E. unfold stored_slab in E. cbn in E. discriminate E.
  - intros n m H. exists (firstn n m). unfold stored_slab.
    rewrite (proj2 (PeanoNat.Nat.ltb_ge (length m) n)) by lia. split; [reflexivity | apply firstn_length_le; lia].
  - intros n m H. unfold stored_slab. rewrite (proj2 (PeanoNat.Nat.ltb_lt (length m) n) H). reflexivity.
Qed.
Print Assumptions C143_levels_refuted.

(** Starting an output never destroys a file: everything found before is still
    there, under the same name unless it was at the path of the output, nothing
    else appears, and the outputs of the run go to a file of their own. *)
Theorem C143_old_files_kept : forall A (fs : files A) path o os,
  let (path', fs') := open_output fs path in
  let fs'' := write_all_at fs' path' (o :: os) in
  look fs'' path' = Some (Regular (series (o :: os))) /\
  (forall n e, look fs n = Some e -> exists n', n' <> path' /\ look fs'' n' = Some e /\ (n <> path -> n' = n)) /\
  (forall n e, n <> path' -> look fs'' n = Some e -> exists n', look fs n' = Some e).
Proof.
  intros A fs path o os. pose proof (open_output_spec A fs path) as H.
  destruct (open_output fs path) as [path' fs']. destruct H as [H1 [H2 H3]]. cbv zeta. split; [|split].
  - apply write_all_at_new. exact H1.
  - intros n e Hn. destruct (H2 n e Hn) as [n' [Hn' Hs]]. exists n'.
    assert (Hne : n' <> path') by (intros ->; congruence).
    split; [exact Hne|]. split; [rewrite write_all_at_other by exact Hne; exact Hn' | exact Hs].
  - intros n e Hne Hn. rewrite write_all_at_other in Hn by exact Hne. apply (H3 n e Hn).
Qed.
Print Assumptions C143_old_files_kept.

(** The file of the previous run is moved to the first free number, here 2. *)
Example C143_rename_example :
  let fs := [(Plain "a.h5", Regular (series [out 1])); (Numbered (Plain "a.h5") 1, Other)] in
  fst (open_output fs (Plain "a.h5")) = Plain "a.h5" /\
  look (snd (open_output fs (Plain "a.h5"))) (Numbered (Plain "a.h5") 2) = Some (Regular (series [out 1])).
Proof. split; reflexivity. Qed.

(** Probes in the plenum: the same, with other names. *)
Theorem C143_plenum_probes : forall A (fs : files A) plenum tube o os, plenum <> tube ->
  let fs' := open_probes fs (Plain plenum) (Plain tube) in
  look (write_all_at fs' (Plain plenum) (o :: os)) (Plain plenum) = Some (Regular (series (o :: os))) /\
  (forall n e, look fs n = Some e -> exists n', look fs' n' = Some e).
Proof.
  intros A fs plenum tube o os Hne. cbv zeta. unfold open_probes.
  destruct (rename_spec A fs (Plain plenum)) as [P1 [P2 P3]].
  destruct (rename_spec A (rename_file_if_exists fs (Plain plenum)) (Plain tube)) as [T1 [T2 T3]].
  split.
  - apply write_all_at_new. rewrite T2; [exact P1 | congruence | discriminate].
  - intros n e Hn. destruct (P3 n e Hn) as [n1 [H1 _]]. destruct (T3 n1 e H1) as [n2 [H2 _]]. exists n2. exact H2.
Qed.
Print Assumptions C143_plenum_probes.

(** Probes in tubes: the file renamed is not the one written to, so the outputs of
    a new run are appended to those of the old one. *)
Theorem C143_tube_probes_refuted :
  (forall A (fs : files A) plenum tube i old os,
     look fs (tube_file (Plain tube) i) = Some (Regular (series old)) ->
     look (write_all_at (open_probes fs (Plain plenum) (Plain tube)) (tube_file (Plain tube) i) os) (tube_file (Plain tube) i)
     = Some (Regular (series (old ++ os)))) /\
  ~ (forall A (fs : files A) plenum tube i o os, plenum <> tube ->
     look (write_all_at (open_probes fs (Plain plenum) (Plain tube)) (tube_file (Plain tube) i) (o :: os)) (tube_file (Plain tube) i)
     = Some (Regular (series (o :: os)))).
Proof.
  assert (G : forall A (fs : files A) plenum tube i old os,
     look fs (tube_file (Plain tube) i) = Some (Regular (series old)) ->
     look (write_all_at (open_probes fs (Plain plenum) (Plain tube)) (tube_file (Plain tube) i) os) (tube_file (Plain tube) i)
     = Some (Regular (series (old ++ os)))).
  { intros A fs plenum tube i old os H. apply write_all_at_same. unfold open_probes.
    destruct (rename_spec A fs (Plain plenum)) as [P1 [P2 P3]].
    destruct (rename_spec A (rename_file_if_exists fs (Plain plenum)) (Plain tube)) as [T1 [T2 T3]].
    rewrite T2; [rewrite P2; [exact H | discriminate | discriminate] | discriminate | discriminate]. }
  split; [exact G|]. intros H.
  pose proof (H nat [(tube_file (Plain "Tube") 0, Regular (series [out 1]))] "Plenum.h5"%string "Tube"%string 0%nat (out 2) [] ltac:(discriminate)) as E.
  rewrite (G nat [(tube_file (Plain "Tube") 0, Regular (series [out 1]))] "Plenum.h5"%string "Tube"%string 0%nat [out 1] [out 2] eq_refl) in E.
  discriminate E.
Qed.
Print Assumptions C143_tube_probes_refuted.
