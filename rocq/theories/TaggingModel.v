(** Model of the tagging methods: tag buffer, gradient detectors and cut cell tagging.
    Sources: src/tagging_method/TagBuffer.cpp, include/fub/tagging_method/GradientDetector.hpp,
    src/tagging_method/TagCutCells.cpp.
    A patch of tags is a function from indices to the stored [char]; [char] is signed with eight bits (x86). *)
From Coq Require Import List ZArith Reals Bool.
From Verif Require Import ArrayModel.
Import ListNotations.
Local Open Scope Z_scope.

(** the tags of a patch, TagBuffer.cpp:27-28 [PatchDataView<char, Rank, layout_stride>] *)
Definition tags := index -> Z.

(** TagBuffer.cpp:33,36,59,83 [static_cast<char>(int)] *)
Definition char_of (z : Z) : Z := (z + 128) mod 256 - 128.

(** assignment to one element of the view, TagBuffer.cpp:58,82 and GradientDetector.hpp:185 *)
Definition set_tag (d : tags) (i : index) (v : Z) : tags :=
  fun k => if list_eq_dec Z.eq_dec k i then v else d k.

(** ** TagBuffer *)

(** TagBuffer.cpp:33,36: [data[k] = static_cast<char>('\2' - data[k])] on the span [data] of size [n];
    [None]: the element is not part of the span *)
Definition toggle (n : Z) (od : option tags) (k : Z) : option tags :=
  match od with
  | Some d => if (0 <=? k) && (k <? n) then Some (set_tag d [k] (char_of (2 - d [k]))) else None
  | None => None
  end.

(** TagBuffer.cpp:31-38 the loop body of the 1d version *)
Definition buffer1_at (w n : Z) (od : option tags) (i : Z) : option tags :=
  match od with
  | Some d =>
      if d [i] =? 1 then
        (* 32-34 *)
        let od := fold_left (fun od j => toggle n od (i + j)) (zrange 0 w) (Some d) in
        (* 35-37, j = w, w-1, ..., 1 *)
        fold_left (fun od j => toggle n od (i - j - 1)) (map (fun j => w - j) (zrange 0 w)) od
      else Some d
  | None => None
  end.

(** TagBuffer.cpp:27-40 [TagCellsForRefinement] in 1d; [n] is [tags.Span().size()] and [w] is
    [buffer_width_].  The elements of the span are numbered from 0. *)
Definition TagBuffer1 (w n : Z) (d : tags) : option tags :=
  fold_left (buffer1_at w n) (zrange w (n - w)) (Some d).

(** TagBuffer.cpp:58-59 *)
Definition raise3 (k : index) (d : tags) : tags := set_tag d k (Z.max (d k) (char_of (3 - d k))).

(** TagBuffer.cpp:49-62 the loop body of the 2d version *)
Definition buffer2_at (w nx ny : Z) (c : index) (d : tags) : tags :=
  let i := nthZ c 0 in
  let j := nthZ c 1 in
  if (d c =? 1) || (d c =? 2) then
    let k0 := Z.max (i - w) 0 in
    let k1 := Z.min (i + w) nx in
    let l0 := Z.max (j - w) 0 in
    let l1 := Z.min (j + w) ny in
    ForEachIndex (mkBox [k0; l0] [k1; l1]) raise3 d
  else d.

(** TagBuffer.cpp:42-65 [TagCellsForRefinement] in 2d.  Elements are numbered from 0 as by [MdSpan()]; the
    two nested loops (47-48, 56-57), whose inner loop runs over the first index, are written as
    [ForEachIndex]. *)
Definition TagBuffer2 (w nx ny : Z) (d : tags) : tags :=
  ForEachIndex (mkBox [0; 0] [nx; ny]) (buffer2_at w nx ny) d.

(** TagBuffer.cpp:82-83 *)
Definition raise2 (k : index) (d : tags) : tags := set_tag d k (Z.max (d k) (char_of (2 - d k))).

(** TagBuffer.cpp:67-86 [TagCellsForRefinement] in 3d; [b] is [tags.Box()] *)
Definition TagBuffer3 (w : Z) (b : IndexBox) (d : tags) : tags :=
  let box := Shrink (Shrink (Shrink b 0 (w, w)) 1 (w, w)) 2 (w, w) in
  ForEachIndex box
    (fun c d =>
       let lower := [nthZ c 0 - w; nthZ c 1 - w; nthZ c 2 - w] in
       let upper := [nthZ c 0 + w; nthZ c 1 + w; nthZ c 2 + w] in
       ForEachIndex (mkBox lower upper) raise2 d) d.

(** ** Gradient detectors *)

(** GradientDetector.hpp:34-45 [EmbedInSpace<DestRank>]: missing coordinates are 0 *)
Definition EmbedInSpace (dest_rank : nat) (i : index) : index :=
  i ++ repeat 0 (dest_rank - length i).

(** GradientDetector.hpp:181-184 [std::abs(xM - xL) / (std::abs(xM) + std::abs(xL))]; [None] is the NaN
    produced by 0/0 *)
Definition relative_difference (xM xL : R) : option R :=
  if Req_EM_T (Rabs xM + Rabs xL) 0 then None else Some (Rabs (xM - xL) / (Rabs xM + Rabs xL))%R.

(** GradientDetector.hpp:186 [x > tolerance], false for NaN *)
Definition exceeds (x : option R) (tolerance : R) : bool :=
  match x with Some x => if Rlt_dec tolerance x then true else false | None => false end.

(** GradientDetector.hpp:266-267 [x < tolerance], false for NaN *)
Definition below (x : option R) (tolerance : R) : bool :=
  match x with Some x => if Rlt_dec x tolerance then true else false | None => false end.

(** GradientDetector.hpp:53-64 the conditions: projections of a state with tolerances *)
Definition conditions (S : Type) := list ((S -> R) * R).

(** GradientDetector.hpp:172-188 and 212-227 the lambda applied to every condition; [t] is the index of the
    tag *)
Definition detect_condition {S} (states : index -> S) (l m r t : index) (cond : (S -> R) * R) (d : tags) : tags :=
  let xL := fst cond (states l) in
  let xM := fst cond (states m) in
  let xR := fst cond (states r) in
  if (if Req_EM_T xM xR then false else true) || (if Req_EM_T xM xL then false else true) then
    let a := relative_difference xM xL in
    let b := relative_difference xM xR in
    set_tag d t (Z.lor (d t) (if exceeds a (snd cond) || exceeds b (snd cond) then 1 else 0))
  else d.

(** GradientDetector.hpp:154-192 [ScalarGradientDetector_::TagCellsForRefinement(tags, states)] *)
Definition ScalarDetector {S} (conds : conditions S) (tag_rank : nat) (tagbox statebox : IndexBox)
    (states : index -> S) (d : tags) : tags :=
  fold_left (fun d dir =>
    ForEachIndex (Shrink statebox dir (1, 1)) (fun mid d =>
      if ContainsIndex tagbox (EmbedInSpace tag_rank mid) then
        let l := Shift mid dir (-1) in
        let r := Shift mid dir 1 in
        fold_left (fun d cond => detect_condition states l mid r (EmbedInSpace tag_rank mid) cond d) conds d
      else d) d)
    (seq 0 (length (lower statebox))) d.

(** GradientDetector.hpp:194-232 the version with volume fractions *)
Definition ScalarDetectorVolumes {S} (conds : conditions S) (tagbox statebox : IndexBox)
    (states : index -> S) (volumes : index -> R) (d : tags) : tags :=
  fold_left (fun d dir =>
    ForEachIndex (Shrink statebox dir (1, 1)) (fun mid d =>
      if ContainsIndex tagbox mid then
        let l := Shift mid dir (-1) in
        let r := Shift mid dir 1 in
        if (if Rlt_dec 0 (volumes l) then true else false) && (if Rlt_dec 0 (volumes mid) then true else false)
           && (if Rlt_dec 0 (volumes r) then true else false)
        then fold_left (fun d cond => detect_condition states l mid r mid cond d) conds d
        else d
      else d) d)
    (seq 0 (length (lower statebox))) d.

(** GradientDetector.hpp:259-270, 280-290 one lane of the vectorised comparison for one condition *)
Definition lane_condition {S} (sL sM sR : S) (tag : Z) (cond : (S -> R) * R) : Z :=
  let xL := fst cond sL in
  let xM := fst cond sM in
  let xR := fst cond sR in
  let tag := if below (relative_difference xM xL) (snd cond) then tag else 1 in
  if below (relative_difference xM xR) (snd cond) then tag else 1.

(** GradientDetector.hpp:259-270 all conditions in one lane *)
Definition lane_tag {S} (conds : conditions S) (sL sM sR : S) (tag : Z) : Z :=
  fold_left (lane_condition sL sM sR) conds tag.

(** A row of tags, cell k of the row at offset k (GradientDetector.hpp:247 [span<char> tags_row]) *)
Definition tag_row := Z -> Z.

(** GradientDetector.hpp:271, 291: storing the lanes 0 .. w-1 at [p] *)
Definition store_lanes (p w : Z) (lanes : Z -> Z) (t : tag_row) : tag_row :=
  fun k => if (p <=? k) && (k <? p + w) then lanes (k - p) else t k.

(** GradientDetector.hpp:241-293 the body of the loop over rows.  [s k] is the state at cell k of the row of
    tags, so [pL], [pM] and [pR] point to the cells -1, 0 and 1 at the beginning; [w] is the number of lanes.
    [pR] is the argument of the loop; the tail (274-291) starts with the members [pL] and [pM], which have
    not moved.  [fuel] bounds the number of chunks. *)
Fixpoint row_chunks {S} (fuel : nat) (conds : conditions S) (w n : Z) (s : Z -> S) (pR tp : Z)
    (sM sR : Z -> S) (t : tag_row) : tag_row :=
  match fuel with
  | O => t
  | Datatypes.S fuel =>
      if w <=? n then
        let sL := sM in                                   (* 256 *)
        let sM := sR in                                   (* 257 *)
        let sR := fun lane => s (pR + lane) in            (* 258 *)
        let t := store_lanes tp w (fun lane => lane_tag conds (sL lane) (sM lane) (sR lane) (t (tp + lane))) t in
        row_chunks fuel conds w (n - w) s (pR + w) (tp + w) sM sR t
      else
        (* 275-291 *)
        store_lanes tp n (fun lane => lane_tag conds (s (-1 + lane)) (s (0 + lane)) (s (pR + lane)) (t (tp + lane))) t
  end.

(** GradientDetector.hpp:245-293 one row of [n] cells; the registers [sM_] and [sR_] hold the cells from -1
    and from 0 on if there is at least one chunk (251-254) *)
Definition ArrayDetectorRow {S} (conds : conditions S) (w n : Z) (s : Z -> S) (t : tag_row) : tag_row :=
  row_chunks (Datatypes.S (Z.to_nat n)) conds w n s 1 0 (fun lane => s (-1 + lane)) (fun lane => s (0 + lane)) t.

(** GradientDetector.hpp:239-295 [ArrayGradientDetector_::TagCellsForRefinement]: only direction X; one row
    for every position in the other directions (StateRow.hpp:171-221, see [ForEachRow] in ArrayModel.v) *)
Definition ArrayDetector {S} (conds : conditions S) (w : Z) (tagbox : IndexBox) (states : index -> S)
    (d : tags) : tags :=
  let x0 := nthZ (lower tagbox) 0 in
  let n := nthZ (upper tagbox) 0 - x0 in
  fold_left (fun d outer =>
    let t := ArrayDetectorRow conds w n (fun k => states (x0 + k :: outer)) (fun k => d (x0 + k :: outer)) in
    fun i => match i with
             | x :: o => if list_eq_dec Z.eq_dec o outer then t (x - x0) else d i
             | [] => d i
             end)
    (loop_indices (tl (lower tagbox)) (tl (upper tagbox))) d.

(** ** Cut cells *)

(** src/tagging_method/TagCutCells.cpp:27-36 *)
Definition TagCutCells (tagbox volumebox : IndexBox) (volumes : index -> R) (d : tags) : tags :=
  ForEachIndex (Intersect tagbox volumebox) (fun i d =>
    if (if Rlt_dec 0 (volumes i) then true else false) && (if Rlt_dec (volumes i) 1 then true else false)
    then set_tag d i 1 else d) d.
