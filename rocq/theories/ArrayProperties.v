(** Properties C19-C25, C59, C60: arrays, boxes and loops. *)
From Coq Require Import List ZArith Lia Bool Sorting.Sorted.
From Verif Require Import ArrayModel ArraySpec ArrayProofs BoxProofs ArrayExamples.
Import ListNotations.
Local Open Scope Z_scope.

(** ** C19 *)

(** layout_left and layout_right map the valid indices one-to-one onto 0 .. size-1, and the span they
    require has exactly that size; every rank, every extents. *)
Theorem C19_layouts_are_bijections : forall e, extents_ok e ->
  bijective_layout (LayoutLeft e) /\ bijective_layout (LayoutRight e) /\
  required_span_size (LayoutLeft e) = product e /\ required_span_size (LayoutRight e) = product e.
Proof.
  intros e He. split; [apply left_bijective; assumption|]. split; [apply right_bijective; assumption|].
  split; apply Size_product.
Qed.
Print Assumptions C19_layouts_are_bijections.

Example C19_example_bijection :
  extents_ok [4; 3; 2] /\ valid_index [4; 3; 2] [3; 1; 1] /\
  map_index (LayoutLeft [4; 3; 2]) [3; 1; 1] = 19 /\ map_index (LayoutRight [4; 3; 2]) [3; 1; 1] = 21.
Proof.
  split; [repeat constructor; lia|]. split; [|split; reflexivity].
  split; [reflexivity|]. intros [|[|[|r]]] Hr; simpl in *; lia.
Qed.

(** In every layout, moving by [d] in direction [r] moves the offset by [d] times stride(r). *)
Theorem C19_strides : forall m i j r d,
  length i = length (map_extents m) -> (r < length i)%nat -> shifted i j r d ->
  map_index m j = map_index m i + map_stride m r * d.
Proof. intros m i j r d Hl Hr Hs. apply map_index_shifted; assumption. Qed.
Print Assumptions C19_strides.

Example C19_example_strides :
  shifted [1; 2; 0] [1; 2; 1] 2 1 /\
  map_index (LayoutLeft [4; 3; 2]) [1; 2; 1] = map_index (LayoutLeft [4; 3; 2]) [1; 2; 0] + 12.
Proof.
  split; [|reflexivity]. split; [reflexivity|]. split; [reflexivity|].
  intros [|[|[|[|k]]]] H; simpl; try reflexivity; lia.
Qed.

(** ** C20 *)

(** A sub view refers to the same elements as its parent, for every layout of the parent. *)
Theorem C20_subview_same_elements : forall v b i,
  view_ok v -> box_of_rank (length (pdv_origin v)) b -> in_box b i ->
  pdv_at (Subview v b) i = pdv_at v i.
Proof.
  intros v b i Hv Hb Hi. apply subview_at; [assumption|assumption|]. destruct Hi as (H & _). destruct Hb. congruence.
Qed.
Print Assumptions C20_subview_same_elements.

(** Its box is the requested one, if that is not empty. *)
Theorem C20_subview_box_partial : forall v b,
  view_ok v -> box_of_rank (length (pdv_origin v)) b ->
  (forall r, (r < length (pdv_origin v))%nat -> nth r (lower b) 0 < nth r (upper b) 0) ->
  pdv_box (Subview v b) = b.
Proof. exact subview_box. Qed.
Print Assumptions C20_subview_box_partial.

(** Sub views of sub views ... of a dense patch stay inside the memory of the patch, address the same
    elements as the patch and different indices never share an element. *)
Theorem C20_nested_subviews : forall v bs i j,
  view_ok v -> extents_ok (map_extents (md_map (pdv_span v))) ->
  (forall e s, md_map (pdv_span v) <> LayoutStride e s) ->
  Forall (box_of_rank (length (pdv_origin v))) bs ->
  in_box (pdv_box v) i -> in_box (pdv_box v) j ->
  pdv_at (fold_left Subview bs v) i = pdv_at v i /\
  md_ptr (pdv_span v) <= pdv_at (fold_left Subview bs v) i
    < md_ptr (pdv_span v) + product (map_extents (md_map (pdv_span v))) /\
  (pdv_at (fold_left Subview bs v) i = pdv_at (fold_left Subview bs v) j -> i = j).
Proof.
  intros v bs i j Hv He Hd Hb Hi Hj.
  assert (length i = length (pdv_origin v)) as Li by apply Hi.
  assert (length j = length (pdv_origin v)) as Lj by apply Hj.
  rewrite !(subviews_at v bs) by assumption. split; [reflexivity|]. split.
  - apply dense_at_bounds; assumption.
  - intros E. eapply dense_at_injective; eassumption.
Qed.
Print Assumptions C20_nested_subviews.

Example C20_example :
  view_ok ex_patch /\ in_box ex_box [1; 0; 1] /\
  pdv_box (Subview ex_patch ex_box) = ex_box /\
  pdv_at ex_patch [1; 0; 1] = 118 /\ pdv_at (Subview ex_patch ex_box) [1; 0; 1] = 118 /\
  pdv_at (fold_left Subview [ex_box; ex_box_inner] ex_patch) [1; 0; 1] = 118.
Proof.
  split; [reflexivity|]. split; [|repeat split].
  split; [reflexivity|]. split; [reflexivity|]. intros [|[|[|r]]] Hr; simpl in *; lia.
Qed.

(** For empty boxes the extents of the sub view are permuted: a 0 x 5 box gives a 5 x 0 view. *)
Theorem C20_subview_box_refuted : exists v b,
  view_ok v /\ box_of_rank (length (pdv_origin v)) b /\ ContainsBox (pdv_box v) b = true /\
  (forall r, (r < length (pdv_origin v))%nat -> nth r (lower b) 0 <= nth r (upper b) 0) /\
  pdv_box (Subview v b) <> b.
Proof.
  exists (mkView (mkMdspan 0 (LayoutLeft [5; 5])) [0; 0]), (mkBox [2; 0] [2; 5]).
  repeat split; try reflexivity; [|discriminate].
  intros [|[|r]] Hr; simpl in *; lia.
Qed.
Print Assumptions C20_subview_box_refuted.

(** ** C21 *)

(** Slicing with ranges of positive length gives the lengths of the ranges, in order, and index [i] of
    the result is the element of the source at the expanded index. *)
Theorem C21_slice_partial : forall src slices,
  length slices = length (map_extents (md_map src)) ->
  Forall (fun s => match s with Range a b => a <= b | _ => True end) slices ->
  Forall (fun x => 0 < x) (slice_lengths (map_extents (md_map src)) slices) ->
  map_extents (md_map (subspan src slices)) = slice_lengths (map_extents (md_map src)) slices.
Proof. intros src slices H1 H2 H3. apply subspan_extents; assumption. Qed.
Print Assumptions C21_slice_partial.

Theorem C21_slice_elements : forall src slices i,
  length slices = length (map_extents (md_map src)) -> length i = result_rank slices ->
  md_at (subspan src slices) i = md_at src (expand slices i).
Proof. exact subspan_at. Qed.
Print Assumptions C21_slice_elements.

Example C21_example :
  let src := mkMdspan 10 (LayoutLeft [4; 3; 2]) in
  let slices := [Range 1 3; Scalar 2; All] in
  map_extents (md_map (subspan src slices)) = [2; 2] /\
  slice_lengths [4; 3; 2] slices = [2; 2] /\
  expand slices [1; 1] = [2; 2; 1] /\
  md_at (subspan src slices) [1; 1] = md_at src [2; 2; 1].
Proof. repeat split. Qed.

(** With an empty range the extents are not the lengths of the ranges. *)
Theorem C21_slice_refuted : exists src slices,
  length slices = length (map_extents (md_map src)) /\
  Forall (fun s => match s with Range a b => 0 <= a <= b | _ => True end) slices /\
  map_extents (md_map (subspan src slices)) <> slice_lengths (map_extents (md_map src)) slices.
Proof.
  exists (mkMdspan 0 (LayoutLeft [5; 5])), [Range 0 0; Range 0 5].
  split; [reflexivity|]. split; [repeat constructor; lia|]. discriminate.
Qed.
Print Assumptions C21_slice_refuted.

(** ** C22 *)

(** Intersect is the set intersection, and its result is well formed. *)
Theorem C22_intersect : forall n b1 b2,
  box_of_rank n b1 -> box_of_rank n b2 ->
  (forall i, in_box (Intersect b1 b2) i <-> in_box b1 i /\ in_box b2 i) /\
  (forall r, (r < n)%nat -> nth r (lower (Intersect b1 b2)) 0 <= nth r (upper (Intersect b1 b2)) 0).
Proof.
  intros n b1 b2 H1 H2. split.
  - intros i. apply (intersect_spec n); assumption.
  - intros r Hr. apply (intersect_wellformed n); assumption.
Qed.
Print Assumptions C22_intersect.

(** Contains decides membership and, for a non-empty second box, set inclusion. *)
Theorem C22_contains : forall n b1 b2 i,
  box_of_rank n b1 -> box_of_rank n b2 -> length i = n ->
  (ContainsIndex b1 i = true <-> in_box b1 i) /\
  (nonempty b2 -> (ContainsBox b1 b2 = true <-> forall j, in_box b2 j -> in_box b1 j)).
Proof.
  intros n b1 b2 i H1 H2 Hi. split.
  - apply (contains_index_spec n); assumption.
  - intros Hne. apply (contains_box_spec n); assumption.
Qed.
Print Assumptions C22_contains.

(** Grow and Shrink undo each other and change only the faces of the given direction. *)
Theorem C22_grow_shrink : forall n b dir s i,
  box_of_rank n b -> (dir < n)%nat ->
  Shrink (Grow b dir s) dir s = b /\ Grow (Shrink b dir s) dir s = b /\
  (in_box (Grow b dir s) i <->
   length i = n /\
   nth dir (lower b) 0 - fst s <= nth dir i 0 < nth dir (upper b) 0 + snd s /\
   forall r, (r < n)%nat -> r <> dir -> nth r (lower b) 0 <= nth r i 0 < nth r (upper b) 0).
Proof.
  intros n b dir s i Hb Hd. destruct (grow_shrink n b dir s Hb Hd) as [A B].
  split; [assumption|]. split; [assumption|]. apply grow_spec; assumption.
Qed.
Print Assumptions C22_grow_shrink.

(** The cells left and right of a face are its two neighbours: face f separates cells f-1 and f. *)
Theorem C22_neighbours : forall face dir (k : Z),
  (dir < length face)%nat ->
  shifted face (LeftTo face dir k) dir (- k) /\ shifted face (RightTo face dir k) dir (k - 1) /\
  RightTo face dir 1 = face /\ Shift (LeftTo face dir 1) dir 1 = RightTo face dir 1.
Proof.
  intros face dir k Hd. split; [apply shift_shifted; assumption|]. split; [apply shift_shifted; assumption|].
  unfold RightTo, LeftTo, Shift, nthZ. rewrite nth_set_same, set_nth_twice by assumption.
  replace (nth dir face 0 + (1 - 1)) with (nth dir face 0) by lia.
  replace (nth dir face 0 + - (1) + 1) with (nth dir face 0) by lia. rewrite set_nth_same. split; reflexivity.
Qed.
Print Assumptions C22_neighbours.

(** Embedding into a higher rank, projecting back and neighbourhoods. *)
Theorem C22_embed_neighborhood : forall n b lim i k w j,
  box_of_rank n b -> length i = n ->
  Project n (Embed b lim) = b /\
  (in_box (Embed b lim) (i ++ [k]) <-> in_box b i /\ fst lim <= k < snd lim) /\
  (in_box (Neighborhood i w) j <->
   length j = length i /\ forall r, (r < length i)%nat -> Z.abs (nth r j 0 - nth r i 0) <= w).
Proof.
  intros n b lim i k w j Hb Hi. split; [apply project_embed; assumption|]. split.
  - apply inside_app_last. destruct Hb. congruence.
  - apply neighborhood_spec.
Qed.
Print Assumptions C22_embed_neighborhood.

Example C22_example :
  Intersect ex_b1 ex_b2 = mkBox [2; 1] [4; 3] /\ in_box (Intersect ex_b1 ex_b2) [3; 2] /\
  ContainsBox ex_b1 (Intersect ex_b1 ex_b2) = true /\
  Grow ex_b1 0 (1, 1) = mkBox [-1; -2] [5; 3] /\ LeftTo [3; 2] 0 1 = [2; 2].
Proof.
  split; [reflexivity|]. split; [|repeat split].
  split; [reflexivity|]. split; [reflexivity|]. intros [|[|r]] Hr; simpl in *; lia.
Qed.

(** ** C23 *)

(** The calls of ForEachIndex are exactly the indices of the box, once each, in colexicographic order:
    the effect of the loop is that of the callback over any sorted enumeration of the box. *)
Theorem C23_for_each_index : forall n b, box_of_rank n b ->
  exists calls : list (list Z),
    (forall (W : Type) (f : list Z -> W -> W) w, ForEachIndex b f w = fold_left (fun w i => f i w) calls w) /\
    (forall i, In i calls <-> in_box b i) /\ NoDup calls /\ StronglySorted colex_lt calls.
Proof.
  intros n b [H1 H2]. exists (loop_indices (lower b) (upper b)). split; [reflexivity|]. split.
  - intros i. apply loop_indices_in. congruence.
  - split; [apply sorted_nodup|]; apply loop_indices_sorted.
Qed.
Print Assumptions C23_for_each_index.

(** For a layout_left mapping the loop walks through memory: offsets 0, 1, ..., size-1 in this order. *)
Theorem C23_memory_order : forall e, extents_ok e ->
  ForEachIndexMapping (LayoutLeft e) (fun i offsets => offsets ++ [map_index (LayoutLeft e) i]) [] =
  interval 0 (product e).
Proof.
  intros e He. unfold ForEachIndexMapping. cbn [map_extents].
  assert (forall (f : list Z -> Z) l acc, fold_left (fun w i => w ++ [f i]) l acc = acc ++ map f l) as E.
  { intros f l; induction l as [|x l IH]; intros acc; simpl; [symmetry; apply app_nil_r|].
    rewrite IH, <- app_assoc. reflexivity. }
  rewrite E. apply memory_order. assumption.
Qed.
Print Assumptions C23_memory_order.

Example C23_example :
  ForEachIndex (mkBox [-1; 0] [1; 2]) (fun i l => l ++ [i]) [] = [[-1; 0]; [0; 0]; [-1; 1]; [0; 1]] /\
  ForEachIndex (mkBox [0; 3] [5; 3]) (fun i l => l ++ [i]) [] = [] /\
  ForEachIndexMapping (LayoutLeft [2; 3]) (fun i l => l ++ [map_index (LayoutLeft [2; 3]) i]) [] = [0; 1; 2; 3; 4; 5].
Proof. repeat split. Qed.

(** ** C24 *)

(** ForEachRow presents the rows in order, each with exactly its elements, and terminates; every rank,
    any number of views.  Ranks 1 and 3: all extents. *)
Theorem C24_rows_rank1_rank3 : forall fuel v0 rest,
  (Forall (row_view 1) (v0 :: rest) -> 0 <= extent0 v0 0 ->
   exists calls, ForEachRow fuel 1 (v0 :: rest) = LoopDone calls /\
    map (map row_elements) calls =
    [map (fun v => map (fun k => md_at (pdv_span v) [k]) (interval 0 (extent0 v0 0))) (v0 :: rest)]) /\
  (Forall (row_view 3) (v0 :: rest) -> 0 <= extent0 v0 1 -> 0 <= extent0 v0 2 ->
   exists calls, ForEachRow fuel 3 (v0 :: rest) = LoopDone calls /\
    map (map row_elements) calls =
    flat_map (fun l => map (fun j =>
       map (fun v => map (fun k => md_at (pdv_span v) [k; j; l]) (interval 0 (extent0 v0 0))) (v0 :: rest))
        (interval 0 (extent0 v0 1))) (interval 0 (extent0 v0 2))).
Proof. intros. split; [apply rows_rank1|apply rows_rank3]. Qed.
Print Assumptions C24_rows_rank1_rank3.

(** Rank 2: for the shapes [first_view_ok] of the first view. *)
Theorem C24_rows_rank2_partial : forall v0 rest,
  Forall (row_view 2) (v0 :: rest) -> first_view_ok (md_map (pdv_span v0)) ->
  exists calls, (exists N, forall fuel, (N < fuel)%nat -> ForEachRow fuel 2 (v0 :: rest) = LoopDone calls) /\
    map (map row_elements) calls =
    map (fun j => map (fun v => map (fun k => md_at (pdv_span v) [k; j]) (interval 0 (extent0 v0 0))) (v0 :: rest))
        (interval 0 (extent0 v0 1)).
Proof.
  intros v0 rest Hv Hf. destruct (rows_rank2 v0 rest Hv Hf) as (calls & H & E).
  exists calls. split; [|assumption]. eexists. exact H.
Qed.
Print Assumptions C24_rows_rank2_partial.

Example C24_example :
  Forall (row_view 2) [ex_cells; ex_sub] /\ first_view_ok (md_map (pdv_span ex_cells)) /\
  first_view_ok (md_map (pdv_span ex_sub)) /\
  ForEachRow 4 2 [ex_cells; ex_sub] = LoopDone [[(0, 4); (51, 4)]; [(4, 4); (56, 4)]; [(8, 4); (61, 4)]] /\
  ForEachRow 0 3 [ex_3d] = LoopDone [[(7, 2)]; [(9, 2)]; [(11, 2)]; [(13, 2)]; [(15, 2)]; [(17, 2)]].
Proof.
  split; [repeat constructor|]. split; [simpl; lia|]. split; [vm_compute; intuition congruence|].
  split; reflexivity.
Qed.

(** A dense rank 2 view of width zero: the iteration never ends. *)
Theorem C24_zero_width_refuted : forall p e1 origin rest fuel, 0 <= e1 ->
  exists calls, ForEachRow fuel 2 (mkView (mkMdspan p (LayoutLeft [0; e1])) origin :: rest) = LoopRunning calls.
Proof. intros. apply rows_no_width. Qed.
Print Assumptions C24_zero_width_refuted.

(** A sub view of full width without rows: one row is presented although the view has no element. *)
Theorem C24_empty_subview_refuted : exists v b calls,
  view_ok v /\ box_of_rank 2 b /\ ContainsBox (pdv_box v) b = true /\ (forall i, ~ in_box b i) /\
  ForEachRow 2 2 [Subview v b] = LoopDone calls /\ map (map row_elements) calls <> [].
Proof.
  exists ex_cells, (mkBox [0; 3] [4; 3]), [[(12, 4)]].
  repeat split; try reflexivity; [|discriminate].
  intros i (H1 & H2 & H). simpl in H1. specialize (H 1%nat ltac:(lia)). simpl in H. lia.
Qed.
Print Assumptions C24_empty_subview_refuted.

(** ** C25 *)

(** Dense mappings that compare equal map every index to the same offset. *)
Theorem C25_equal_mappings_partial : forall a b i,
  (exists e, a = LayoutLeft e) /\ (exists e, b = LayoutLeft e) \/
  (exists e, a = LayoutRight e) /\ (exists e, b = LayoutRight e) ->
  mapping_eqb a b = true -> map_index a i = map_index b i.
Proof.
  intros a b i [[(e & ->) (e' & ->)]|[(e & ->) (e' & ->)]] H; apply extents_eqb_eq in H; cbn in H; subst; reflexivity.
Qed.
Print Assumptions C25_equal_mappings_partial.

Example C25_example :
  mapping_eqb (LayoutLeft [4; 3]) (LayoutLeft [4; 3]) = true /\ mapping_eqb (LayoutLeft [4; 3]) (LayoutLeft [3; 4]) = false.
Proof. split; reflexivity. Qed.

(** Strided mappings that compare equal may address different elements. *)
Theorem C25_strided_refuted : exists a b i,
  (exists e s, a = LayoutStride e s) /\ (exists e s, b = LayoutStride e s) /\
  valid_index (map_extents a) i /\ mapping_eqb a b = true /\ map_index a i <> map_index b i.
Proof.
  exists (LayoutStride [2; 2] [1; 2]), (LayoutStride [2; 2] [1; 5]), [0; 1].
  split; [eauto|]. split; [eauto|]. split; [|split; [reflexivity|discriminate]].
  split; [reflexivity|]. intros [|[|r]] Hr; simpl in *; lia.
Qed.
Print Assumptions C25_strided_refuted.

(** ** C59 *)

(** SliceLast(view, c)(i) is view(i, c), for views with layout_left or strides and component origin 0. *)
Theorem C59_slice_last_partial : forall v c i n,
  view_ok v -> leading_strides_kept (md_map (pdv_span v)) ->
  length (pdv_origin v) = S n -> nth n (pdv_origin v) 0 = 0 -> length i = n ->
  pdv_at (SliceLast v c) i = pdv_at v (i ++ [c]).
Proof. exact slice_last_at. Qed.
Print Assumptions C59_slice_last_partial.

Example C59_example :
  view_ok ex_patch /\ leading_strides_kept (md_map (pdv_span ex_patch)) /\
  pdv_at (SliceLast ex_patch 1) [1; 0] = 118 /\
  pdv_at (SliceLast (Subview ex_patch ex_box) 1) [1; 0] = 118.
Proof. repeat split. Qed.

(** For layout_right the slice is taken as if it were dense. *)
Theorem C59_layout_right_refuted : exists v c i,
  view_ok v /\ nth 2 (pdv_origin v) 0 = 0 /\ in_box (pdv_box v) (i ++ [c]) /\
  pdv_at (SliceLast v c) i <> pdv_at v (i ++ [c]).
Proof.
  exists (mkView (mkMdspan 0 (LayoutRight [2; 2; 3])) [0; 0; 0]), 1, [1; 1].
  split; [reflexivity|]. split; [reflexivity|]. split; [|discriminate].
  split; [reflexivity|]. split; [reflexivity|]. intros [|[|[|r]]] Hr; simpl in *; lia.
Qed.
Print Assumptions C59_layout_right_refuted.

(** ** C60 *)

(** The run time extents are the static ones with the dynamic ones filled in, in order. *)
Theorem C60_mixed_extents : forall statics dyn,
  length dyn = count_dynamic_extents statics ->
  storage_extents statics dyn = fill_dynamic statics dyn /\
  (forall a b, extents_eqb a b = true <-> a = b).
Proof.
  intros statics dyn _. split; [apply storage_extents_fill|]. intros a b. split; [apply extents_eqb_eq|].
  intros ->. unfold extents_eqb. rewrite Nat.eqb_refl. apply forallb_forall. intros r _. apply Z.eqb_refl.
Qed.
Print Assumptions C60_mixed_extents.

Example C60_example :
  count_dynamic_extents [3; -1; 5; -1] = 2%nat /\ storage_extents [3; -1; 5; -1] [7; 9] = [3; 7; 5; 9].
Proof. split; reflexivity. Qed.
