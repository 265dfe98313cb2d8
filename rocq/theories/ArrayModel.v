(** Model of the multi dimensional arrays of the library: extents, layouts, sub spans, index boxes, patch
    data views and the loops over them.
    Sources: include/fub/core/mdspan.hpp, include/fub/PatchDataView.hpp, include/fub/ForEach.hpp,
    include/fub/StateRow.hpp.
    [std::ptrdiff_t] is modelled by [Z] (no overflow), [std::array<std::ptrdiff_t, Rank>] by [list Z], so
    that one definition covers every rank.  A pointer is the number of the element it points to. *)
From Coq Require Import List ZArith Lia Bool.
Import ListNotations.
Local Open Scope Z_scope.

(** include/fub/PatchDataView.hpp:33-34 [Index<Rank>] *)
Definition index := list Z.
(** reading [array[r]] of an [Index<Rank>], PatchDataView.hpp:33-34 *)
Definition nthZ (l : list Z) (r : nat) : Z := nth r l 0.

(** ** Extents, include/fub/core/mdspan.hpp:131-204 *)

(** include/fub/core/span.hpp [dynamic_extent = -1] *)
Definition dynamic_extent : Z := -1.

(** mdspan.hpp:177-187 [find_dynamic_extent_index(n)] *)
Definition find_dynamic_extent_index (statics : list Z) (n : nat) : nat :=
  fold_left (fun k dim => if Z.eqb (nthZ statics dim) dynamic_extent then S k else k) (seq 0 n) O.

(** mdspan.hpp:165-171 [ExtentsStorage_::extent(n)] for the template arguments [statics] and the stored
    dynamic extents [dyn] (the all-dynamic specialisation, 94-129, is the case where all are dynamic) *)
Definition storage_extent (statics dyn : list Z) (n : nat) : Z :=
  if Z.eqb (nthZ statics n) dynamic_extent
  then nthZ dyn (find_dynamic_extent_index statics n)
  else nthZ statics n.

(** mdspan.hpp:191-201 [count_dynamic_extents] *)
Definition count_dynamic_extents (statics : list Z) : nat :=
  fold_left (fun k dim => if Z.eqb (nthZ statics dim) dynamic_extent then S k else k)
    (seq 0 (length statics)) O.

(** The run time extents, [extent(r)] for r = 0 .. rank-1 (PatchDataView.hpp:163-171 [AsArray]) *)
Definition storage_extents (statics dyn : list Z) : list Z :=
  map (storage_extent statics dyn) (seq 0 (length statics)).

(** mdspan.hpp:259-275 [operator==(extents, extents)] *)
Definition extents_eqb (a b : list Z) : bool :=
  Nat.eqb (length a) (length b) &&
  forallb (fun r => Z.eqb (nthZ a r) (nthZ b r)) (seq 0 (length a)).

(** mdspan.hpp:283-290 [Size_] *)
Definition Size_ (e : list Z) : Z :=
  fold_left (fun size r => size * nthZ e r) (seq 0 (length e)) 1.

(** ** Layouts *)

(** The mappings [layout_left::mapping] (mdspan.hpp:304-399), [layout_right::mapping] (402-470) and
    [layout_stride::mapping] (473-546). *)
Inductive mapping :=
| LayoutLeft (e : list Z)
| LayoutRight (e : list Z)
| LayoutStride (e : list Z) (strides : list Z).

(** mdspan.hpp:329, 414, 494 [extents()] *)
Definition map_extents (m : mapping) : list Z :=
  match m with LayoutLeft e => e | LayoutRight e => e | LayoutStride e _ => e end.

(** mdspan.hpp:355-361 [layout_left::mapping::stride] *)
Definition stride_left (e : list Z) (r : nat) : Z :=
  fold_left (fun s dim => s * nthZ e dim) (seq 0 r) 1.

(** mdspan.hpp:427-433 [layout_right::mapping::stride] *)
Definition stride_right (e : list Z) (r : nat) : Z :=
  fold_left (fun s dim => s * nthZ e dim) (seq (S r) (length e - S r)) 1.

(** mdspan.hpp:355-361, 427-433 and 534 [stride(r)] *)
Definition map_stride (m : mapping) (r : nat) : Z :=
  match m with
  | LayoutLeft e => stride_left e r
  | LayoutRight e => stride_right e r
  | LayoutStride _ s => nthZ s r
  end.

(** mdspan.hpp:385-396, 456-467 [DoMapping_] and 516-524 [layout_stride::mapping::operator()] *)
Definition map_index (m : mapping) (is : index) : Z :=
  fold_left (fun offset r => offset + map_stride m r * nthZ is r)
    (seq 0 (length (map_extents m))) 0.

(** mdspan.hpp:328-330, 414-416 and 503-509 [required_span_size()] *)
Definition required_span_size (m : mapping) : Z :=
  match m with
  | LayoutLeft e => Size_ e
  | LayoutRight e => Size_ e
  | LayoutStride e s =>
      fold_left (fun mx r => Z.max (nthZ e r * nthZ s r) mx) (seq 1 (length e - 1)) (nthZ e 0 * nthZ s 0)
  end.

(** mdspan.hpp:373-377, 444-448 and 537-541 [operator==] between two mappings of the same layout
    (comparing mappings of different layouts does not compile). *)
Definition mapping_eqb (a b : mapping) : bool := extents_eqb (map_extents a) (map_extents b).

(** mdspan.hpp:483-493 [MakeStrides] and the converting constructor from layout_left *)
Definition stride_of_left (m : mapping) : mapping :=
  LayoutStride (map_extents m) (map (map_stride m) (seq 0 (length (map_extents m)))).

(** ** Spans, mdspan.hpp:573-709 [basic_mdspan] *)
Record mdspan := mkMdspan { md_ptr : Z; md_map : mapping }.

(** mdspan.hpp:639-651 [operator()]: the element an index refers to *)
Definition md_at (s : mdspan) (is : index) : Z := md_ptr s + map_index (md_map s) is.

(** mdspan.hpp:679-681 [get_span()]: first element and number of elements *)
Definition md_span (s : mdspan) : Z * Z := (md_ptr s, required_span_size (md_map s)).

(** ** Slicing, mdspan.hpp:733-983 *)

(** The slice specifiers accepted by [subspan], mdspan.hpp:733-748: an index, a half open range or [all] *)
Inductive slice := Scalar (i : Z) | Range (a b : Z) | All.

(** mdspan.hpp:744-748 [IsSliceRange_] *)
Definition is_range (s : slice) : bool := match s with Scalar _ => false | _ => true end.

(** mdspan.hpp:901-908 [MakeOrigin__] *)
Definition make_origin (s : slice) : Z := match s with Scalar i => i | Range a _ => a | All => 0 end.

(** mdspan.hpp:927-937 [MapToLength_] *)
Definition map_to_length (s : slice) : Z := match s with Scalar _ => 0 | Range a b => b - a | All => -1 end.

(** mdspan.hpp:945-953, the array dyn_length *)
Definition dyn_length (e : list Z) (slices : list slice) : list Z :=
  map (fun i => if nth i (map map_to_length slices) 0 <? 0 then nthZ e i
                else nth i (map map_to_length slices) 0) (seq 0 (length e)).

(** the assignment [array[k] = v], as in mdspan.hpp:957 and PatchDataView.hpp:40 *)
Fixpoint set_nth (l : list Z) (k : nat) (v : Z) : list Z :=
  match l, k with
  | [], _ => []
  | _ :: r, O => v :: r
  | x :: r, S k' => x :: set_nth r k' v
  end.

(** mdspan.hpp:760-762 [SliceRank_] *)
Definition slice_rank (slices : list slice) : nat := length (filter is_range slices).

(** mdspan.hpp:939-962 [MakeSliceExtents2_]: the result starts as zeros and every positive length is
    stored at the next position.  A store past the end (impossible for the calls in the library) is
    ignored. *)
Definition make_slice_extents (e : list Z) (slices : list slice) : list Z :=
  fst (fold_left (fun (acc : list Z * nat) i =>
                    if 0 <? nth i (dyn_length e slices) 0
                    then (set_nth (fst acc) (snd acc) (nth i (dyn_length e slices) 0), S (snd acc))
                    else acc)
         (seq 0 (length e)) (repeat 0 (slice_rank slices), O)).

(** mdspan.hpp:860-872 [MakeRangeIndices__] *)
Definition make_range_indices (slices : list slice) : list nat :=
  filter (fun i => is_range (nth i slices All)) (seq 0 (length slices)).

(** mdspan.hpp:892-899 [MakeSliceArray_] *)
Definition make_slice_array (m : mapping) (slices : list slice) : list Z :=
  map (map_stride m) (make_range_indices slices).

(** mdspan.hpp:964-984 [subspan] *)
Definition subspan (src : mdspan) (slices : list slice) : mdspan :=
  mkMdspan (md_ptr src + map_index (md_map src) (map make_origin slices))
    (LayoutStride (make_slice_extents (map_extents (md_map src)) slices)
                  (make_slice_array (md_map src) slices)).

(** ** Index arithmetic, PatchDataView.hpp:36-65 *)

(** PatchDataView.hpp:36-42 [Shift] *)
Definition Shift (idx : index) (dir : nat) (shift : Z) : index :=
  set_nth idx dir (nthZ idx dir + shift).

(** PatchDataView.hpp:44-48 [LeftTo] *)
Definition LeftTo (idx : index) (dir : nat) (shift : Z) : index := Shift idx dir (- shift).

(** PatchDataView.hpp:50-54 [RightTo] *)
Definition RightTo (idx : index) (dir : nat) (shift : Z) : index := Shift idx dir (shift - 1).

(** PatchDataView.hpp:56-65 [EmbedIndex] *)
Definition EmbedIndex (idx : index) (dir : nat) : index := idx ++ [Z.of_nat dir].

(** ** Index boxes, PatchDataView.hpp:67-182 *)

(** PatchDataView.hpp:67-71 [struct IndexBox] *)
Record IndexBox := mkBox { lower : index; upper : index }.

(** std::transform over two arrays, as in PatchDataView.hpp:104-112 *)
Definition map2 {A B C} (f : A -> B -> C) (a : list A) (b : list B) : list C :=
  map (fun p => f (fst p) (snd p)) (combine a b).

(** std::equal(a.begin(), a.end(), b.begin(), std::less_equal<>{}), PatchDataView.hpp:85-88 *)
Definition all_leb (a b : list Z) : bool := forallb (fun p => fst p <=? snd p) (combine a b).

(** PatchDataView.hpp:83-89 [Contains(box, box)] *)
Definition ContainsBox (b1 b2 : IndexBox) : bool :=
  all_leb (lower b1) (lower b2) && all_leb (upper b2) (upper b1).

(** PatchDataView.hpp:91-97 [Contains(box, index)] *)
Definition ContainsIndex (b : IndexBox) (i : index) : bool :=
  ContainsBox b (mkBox i (map (fun k => k + 1) i)).

(** PatchDataView.hpp:99-114 [Intersect] *)
Definition Intersect (b1 b2 : IndexBox) : IndexBox :=
  let lo := map2 Z.max (lower b1) (lower b2) in
  let up := map2 Z.min (upper b1) (upper b2) in
  mkBox lo (map2 Z.max lo up).

(** PatchDataView.hpp:116-126 [Grow] *)
Definition Grow (b : IndexBox) (dir : nat) (shifts : Z * Z) : IndexBox :=
  mkBox (set_nth (lower b) dir (nthZ (lower b) dir - fst shifts))
        (set_nth (upper b) dir (nthZ (upper b) dir + snd shifts)).

(** PatchDataView.hpp:128-138 [Shrink] *)
Definition Shrink (b : IndexBox) (dir : nat) (shifts : Z * Z) : IndexBox :=
  mkBox (set_nth (lower b) dir (nthZ (lower b) dir + fst shifts))
        (set_nth (upper b) dir (nthZ (upper b) dir - snd shifts)).

(** PatchDataView.hpp:140-151 [Embed] *)
Definition Embed (b : IndexBox) (limits : Z * Z) : IndexBox :=
  mkBox (lower b ++ [fst limits]) (upper b ++ [snd limits]).

(** PatchDataView.hpp:153-161 [Project<Rank>] *)
Definition Project (rank : nat) (b : IndexBox) : IndexBox :=
  mkBox (firstn rank (lower b)) (firstn rank (upper b)).

(** PatchDataView.hpp:173-182 [Neighborhood] *)
Definition Neighborhood (i : index) (width : Z) : IndexBox :=
  mkBox (map (fun k => k - width) i) (map (fun k => k + (width + 1)) i).

(** ** Patch data views, PatchDataView.hpp:184-326 *)

(** PatchDataView.hpp:187-200 members [mdspan_] and [origin_] *)
Record PatchDataView := mkView { pdv_span : mdspan; pdv_origin : index }.

(** PatchDataView.hpp:254-265 [Box()] *)
Definition pdv_box (v : PatchDataView) : IndexBox :=
  mkBox (pdv_origin v)
        (map2 (fun extents lo => lo + extents) (map_extents (md_map (pdv_span v))) (pdv_origin v)).

(** PatchDataView.hpp:267-294 [Subview]; the two assertions are hypotheses of the theorems *)
Definition Subview (v : PatchDataView) (b : IndexBox) : PatchDataView :=
  let offset := map2 (fun lo origin => lo - origin) (lower b) (pdv_origin v) in
  let extents := map2 (fun lo up => up - lo) (lower b) (upper b) in
  let slices := map2 (fun o e => Range o (o + e)) offset extents in
  mkView (subspan (pdv_span v) slices) (lower b).

(** PatchDataView.hpp:296-325 [operator()(index)]: the element an index refers to *)
Definition pdv_at (v : PatchDataView) (i : index) : Z :=
  md_at (pdv_span v) (map2 (fun i o => i - o) i (pdv_origin v)).

(** PatchDataView.hpp:328-353 [SliceLast(pdv, component)]: for a strided view the strides are kept, for
    layout_left (and layout_right) a new mapping of the same layout is made from the extents. *)
Definition SliceLast (v : PatchDataView) (component : Z) : PatchDataView :=
  let m := md_map (pdv_span v) in
  let r := (length (map_extents m) - 1)%nat in
  let e := map (fun k => nthZ (map_extents m) k) (seq 0 r) in
  let s := map (fun k => map_stride m k) (seq 0 r) in
  let p := md_at (pdv_span v) (repeat 0 r ++ [component]) in
  mkView (mkMdspan p (match m with
                      | LayoutLeft _ => LayoutLeft e
                      | LayoutRight _ => LayoutRight e
                      | LayoutStride _ _ => LayoutStride e s
                      end))
         (firstn r (pdv_origin v)).

(** ** Loops, include/fub/ForEach.hpp *)

(** [for (i = lo; i < hi; ++i)], as in ForEach.hpp:152-184 *)
Definition zrange (lo hi : Z) : list Z := map (fun k => lo + Z.of_nat k) (seq 0 (Z.to_nat (hi - lo))).

(** ForEach.hpp:152-184 [ForEachIndex(box, function)]: the indices passed to [function] in the order of
    the calls; the first index runs in the innermost loop.  The C++ code has one branch for each of the
    ranks 1 to 4; the recursion below is that nest of loops for every rank. *)
Fixpoint loop_indices (lo up : list Z) : list index :=
  match lo, up with
  | l :: ls, u :: us => flat_map (fun outer => map (fun k => k :: outer) (zrange l u)) (loop_indices ls us)
  | _, _ => [[]]
  end.

(** ForEach.hpp:152-184: the effect of the calls on the world [W] *)
Definition ForEachIndex {W : Type} (b : IndexBox) (f : index -> W -> W) (w : W) : W :=
  fold_left (fun w i => f i w) (loop_indices (lower b) (upper b)) w.

(** ForEach.hpp:72-107 and 109-149 [ForEachIndex(mapping, function)]: all loops start at 0 *)
Definition ForEachIndexMapping {W : Type} (m : mapping) (f : index -> W -> W) (w : W) : W :=
  fold_left (fun w i => f i w)
    (loop_indices (repeat 0 (length (map_extents m))) (map_extents m)) w.

(** ** Rows, include/fub/StateRow.hpp:110-221 *)

(** StateRow.hpp:136-146 [ToRow]: a row is a pointer and a number of elements; one per view *)
Definition row := (Z * Z)%type.

(** StateRow.hpp:148-150 [Advance] applied to all pointers, 187-193 and 206-218 *)
Definition advance_all (ptrs strides : list Z) : list Z := map2 Z.add ptrs strides.

(** Outcome of the [while] loop of StateRow.hpp:184-195: it has ended after presenting the given rows (oldest first) or it is
    still running after the given number of iterations. *)
Inductive loop_result := LoopDone (calls : list (list row)) | LoopRunning (calls : list (list row)).

(** StateRow.hpp:183-195: the loop of the rank 2 case for at most [fuel] iterations.  [last] is the end
    pointer of the first view. *)
Fixpoint row_loop (fuel : nat) (last : Z) (row_extent : Z) (strides firsts : list Z) (calls : list (list row))
  : loop_result :=
  match fuel with
  | O => LoopRunning calls
  | S fuel' =>
      if nthZ strides 0 <=? last - nthZ firsts 0
      then row_loop fuel' last row_extent strides (advance_all firsts strides)
             (calls ++ [map (fun p => (p, row_extent)) firsts])
      else LoopDone calls
  end.

(** StateRow.hpp:171-221 [ForEachRow(views, f)]: the list of the calls of [f].  All views have the rank
    [rank] (1, 2 or 3; the C++ code treats every other rank like 3). *)
Definition ForEachRow (fuel : nat) (rank : nat) (views : list PatchDataView) : loop_result :=
  let firsts := map (fun v => md_ptr (pdv_span v)) views in
  let v0 := nth 0 views (mkView (mkMdspan 0 (LayoutLeft [])) []) in
  let m0 := md_map (pdv_span v0) in
  let row_extent := nthZ (map_extents m0) 0 in
  match rank with
  | 1%nat => LoopDone [map (fun p => (p, row_extent)) firsts]
  | 2%nat =>
      row_loop fuel (md_ptr (pdv_span v0) + required_span_size m0) row_extent
        (map (fun v => map_stride (md_map (pdv_span v)) 1) views) firsts []
  | _ =>
      let sy := map (fun v => map_stride (md_map (pdv_span v)) 1) views in
      let sz := map (fun v => map_stride (md_map (pdv_span v)) 2) views in
      let ny := nthZ (map_extents m0) 1 in
      let nz := nthZ (map_extents m0) 2 in
      LoopDone
        (snd (fold_left
           (fun (acc : list Z * list (list row)) _ =>
              let '(fs, calls) := acc in
              (advance_all fs sz,
               snd (fold_left
                 (fun (acc2 : list Z * list (list row)) _ =>
                    let '(ps, calls2) := acc2 in
                    (advance_all ps sy, calls2 ++ [map (fun p => (p, row_extent)) ps]))
                 (zrange 0 ny) (fs, calls))))
           (zrange 0 nz) (firsts, [])))
  end.
