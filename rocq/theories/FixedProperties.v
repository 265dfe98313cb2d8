(** C161: tagging of a fixed region. *)
From Coq Require Import List ZArith Bool Lia.
From Verif Require Import FixedModel FixedSpec FixedProofs.
Import ListNotations.
Local Open Scope Z_scope.

(** On every level, for all boxes, positive ratios (which may differ between the axes), patches and tiles: a cell of the tiles is tagged if it is a part of
    a cell of the box on the coarsest level, all other tags are unchanged. *)
Theorem C161_tags : forall rank region ratio tiles tags level patch i, (forall d, (d < rank)%nat -> 0 < ratio d) ->
  let result := TagCellsForRefinement rank region ratio tiles tags level patch i in
  (visited rank tiles patch i -> inside rank region (ancestor ratio level i) -> result = 1) /\
  (~ (visited rank tiles patch i /\ inside rank region (ancestor ratio level i)) -> result = tags patch i).
Proof.
  intros rank region ratio tiles tags level patch i P result. unfold result, TagCellsForRefinement.
  destruct (fold_tags rank (RefineToLevel ratio region level) tiles tags patch i) as [Y N]. split.
  - intros V R. apply Y; [exact V|]. now apply refine_to_level.
  - intros H. apply N. intros [V R]. apply H. split; [exact V|]. now apply (refine_to_level rank ratio level).
Qed.
Print Assumptions C161_tags.

(** Cells of negative and positive index on level 2 of a plane with ratios 2 and 4: the box from (-1, 0) to (0, 1) becomes (-4, 0) to (3, 31) *)
Example C161_example :
  let ratio := fun d => match d with O => 2 | _ => 4 end in
  let region := {| smallEnd := fun d => match d with O => -1 | _ => 0 end; bigEnd := fun d => match d with O => 0 | _ => 1 end |} in
  let tile := {| smallEnd := fun _ => -8; bigEnd := fun _ => 40 |} in
  let tag := fun x y => TagCellsForRefinement 2 region ratio [(0%nat, tile)] (fun _ _ => 0) 2 0%nat (fun d => match d with O => x | _ => y end) in
  (forall d, (d < 2)%nat -> 0 < ratio d) /\
  tag (-5) 0 = 0 /\ tag (-4) 0 = 1 /\ tag 3 31 = 1 /\ tag 4 31 = 0 /\ tag 3 32 = 0 /\ tag 0 (-1) = 0.
Proof. cbn zeta. split; [intros [|d] _; reflexivity|]. repeat split; vm_compute; reflexivity. Qed.

(** Fixed regions nest: if no tag is set at first, a cell of a finer level is tagged exactly if the cell that it is a part of is tagged on the coarser level. *)
Theorem C161_nested : forall rank region ratio tiles fine_tiles level patch fine_patch i, (forall d, (d < rank)%nat -> 0 < ratio d) ->
  visited rank tiles patch (parent ratio i) -> visited rank fine_tiles fine_patch i ->
  TagCellsForRefinement rank region ratio fine_tiles (fun _ _ => 0) (S level) fine_patch i =
  TagCellsForRefinement rank region ratio tiles (fun _ _ => 0) level patch (parent ratio i).
Proof.
  intros rank region ratio tiles fine_tiles level patch fine_patch i P V F.
  destruct (C161_tags rank region ratio tiles (fun _ _ => 0) level patch (parent ratio i) P) as [Y N].
  destruct (C161_tags rank region ratio fine_tiles (fun _ _ => 0) (S level) fine_patch i P) as [FY FN]. cbn [ancestor] in FY, FN.
  destruct (contains rank region (ancestor ratio level (parent ratio i))) eqn:C.
  - apply contains_inside in C. rewrite FY, Y by assumption. reflexivity.
  - rewrite FN, N; [reflexivity| |]; intros [_ R]; apply contains_inside in R; congruence.
Qed.
Print Assumptions C161_nested.

Example C161_nested_example :
  let region := {| smallEnd := fun _ => 1; bigEnd := fun _ => 2 |} in
  let coarse := {| smallEnd := fun _ => 0; bigEnd := fun _ => 7 |} in
  let fine := {| smallEnd := fun _ => 0; bigEnd := fun _ => 15 |} in
  visited 1 [(0%nat, coarse)] 0 (parent (fun _ => 2) (fun _ => 5)) /\ visited 1 [(1%nat, fine)] 1 (fun _ => 5) /\
  TagCellsForRefinement 1 region (fun _ => 2) [(1%nat, fine)] (fun _ _ => 0) 1 1%nat (fun _ => 5) = 1 /\
  TagCellsForRefinement 1 region (fun _ => 2) [(1%nat, fine)] (fun _ _ => 0) 1 1%nat (fun _ => 6) = 0.
Proof.
  cbn zeta. split; [|split; [|split; vm_compute; reflexivity]].
  - eexists. split; [left; reflexivity|]. intros d D. unfold parent. cbn. lia.
  - eexists. split; [left; reflexivity|]. intros d D. cbn. lia.
Qed.

(** With SAMRAI the same claim holds on the coarsest level. On finer levels it fails, see the next theorem. *)
Theorem C161_samrai_partial : forall rank b patches tags patch i,
  let result := SamraiTagCells rank b patches tags 0 patch i in
  (visited rank (patches 0%nat) patch i -> inside rank b i -> result = 1) /\
  (~ (visited rank (patches 0%nat) patch i /\ inside rank b i) -> result = tags patch i).
Proof. intros rank b patches tags patch i. apply fold_tags. Qed.
Print Assumptions C161_samrai_partial.

Example C161_samrai_example :
  let b := {| smallEnd := fun _ => 4; bigEnd := fun _ => 7 |} in
  let patches := fun level : nat => [(0%nat, {| smallEnd := fun _ => 0; bigEnd := fun _ => 5 |})] in
  SamraiTagCells 2 b patches (fun _ _ => 0) 0 0%nat (fun _ => 5) = 1 /\ SamraiTagCells 2 b patches (fun _ _ => 0) 0 0%nat (fun _ => 6) = 0 /\
  SamraiTagCells 2 b patches (fun _ _ => 0) 0 0%nat (fun _ => 3) = 0.
Proof. cbn zeta. repeat split; vm_compute; reflexivity. Qed.

(** With SAMRAI the region moves between levels: the box is compared with the indices of each level. For every positive number of axes, every ratio of at least two, every finer level
    and every box of one cell away from the origin and all patches, the first part of the box's cell on the finer level is not tagged. *)
Theorem C161_samrai_refuted : forall rank k ratio level patches, (0 < rank)%nat -> (forall d, (d < rank)%nat -> 2 <= ratio d) -> 0 < k -> (0 < level)%nat ->
  exists i, ancestor ratio level i 0%nat = k /\ inside rank {| smallEnd := fun _ => k; bigEnd := fun _ => k |} (ancestor ratio level i) /\
    SamraiTagCells rank {| smallEnd := fun _ => k; bigEnd := fun _ => k |} patches (fun _ _ => 0) level 0%nat i = 0.
Proof.
  intros rank k ratio level patches N R K L.
  assert (A : forall level (i : cell) d, (d < rank)%nat -> i d = k * ratio d ^ Z.of_nat level -> ancestor ratio level i d = k).
  { clear level L. induction level as [|n IH]; intros i d D E; cbn [ancestor].
    - rewrite E. cbn. lia.
    - apply IH; [exact D|]. unfold parent. rewrite E, Nat2Z.inj_succ, Z.pow_succ_r by lia. specialize (R d D).
      replace (k * (ratio d * ratio d ^ Z.of_nat n)) with (k * ratio d ^ Z.of_nat n * ratio d) by ring. apply Z.div_mul. lia. }
  exists (fun d => k * ratio d ^ Z.of_nat level). split; [now apply A|]. split.
  - intros d D. cbn [smallEnd bigEnd]. rewrite A by auto. lia.
  - apply (fold_tags rank _ (patches level) (fun _ _ => 0)). intros [_ H]. specialize (H 0%nat N). cbn [smallEnd bigEnd] in H.
    specialize (R 0%nat N). destruct level as [|n]; [lia|]. rewrite Nat2Z.inj_succ, Z.pow_succ_r in H by lia.
    assert (0 < ratio 0%nat ^ Z.of_nat n) by (apply Z.pow_pos_nonneg; lia).
    remember (ratio 0%nat ^ Z.of_nat n) as p. remember (ratio 0%nat) as r. assert (2 <= r * p) by nia. nia.
Qed.
Print Assumptions C161_samrai_refuted.

Example C161_refuted_example :
  let patches := fun level : nat => [(0%nat, {| smallEnd := fun _ => 0; bigEnd := fun _ => 63 |})] in
  let b := {| smallEnd := fun _ => 3; bigEnd := fun _ => 3 |} in
  SamraiTagCells 1 b patches (fun _ _ => 0) 1 0%nat (fun _ => 6) = 0 /\ SamraiTagCells 1 b patches (fun _ _ => 0) 1 0%nat (fun _ => 3) = 1 /\
  ancestor (fun _ => 2) 1 (fun _ => 6) 0%nat = 3 /\ ancestor (fun _ => 2) 1 (fun _ => 3) 0%nat = 1.
Proof. cbn zeta. repeat split; vm_compute; reflexivity. Qed.
