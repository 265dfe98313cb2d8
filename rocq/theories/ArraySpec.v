(** Vocabulary for the properties of arrays, boxes and loops.  Of the model only the data types [slice]
    and [IndexBox] are used. *)
From Coq Require Import List ZArith.
From Verif Require Import ArrayModel.
Import ListNotations.
Local Open Scope Z_scope.

(** The multi-index [i] lies in the half open box from [lo] to [hi]. *)
Definition inside (lo hi i : list Z) : Prop :=
  length i = length lo /\ length i = length hi /\
  forall r, (r < length i)%nat -> nth r lo 0 <= nth r i 0 < nth r hi 0.

(** [i] is a valid index of an array with the extents [e]. *)
Definition valid_index (e i : list Z) : Prop :=
  length i = length e /\ forall r, (r < length e)%nat -> 0 <= nth r i 0 < nth r e 0.

(** Number of elements of an array. *)
Definition product (l : list Z) : Z := fold_right Z.mul 1 l.

(** All extents are non-negative. *)
Definition extents_ok (e : list Z) : Prop := Forall (fun x => 0 <= x) e.

(** Colexicographic order: the last index is the most significant one, i.e. the first is the fastest. *)
Fixpoint colex_lt (i j : list Z) : Prop :=
  match i, j with
  | x :: i', y :: j' => colex_lt i' j' \/ (i' = j' /\ x < y)
  | _, _ => False
  end.

(** [j] is [i] with [d] added to entry [r] and all other entries the same. *)
Definition shifted (i j : list Z) (r : nat) (d : Z) : Prop :=
  length j = length i /\ nth r j 0 = nth r i 0 + d /\ forall k, k <> r -> nth k j 0 = nth k i 0.

(** Componentwise sum of two indices. *)
Definition plus_index (a b : list Z) : list Z := map (fun p => fst p + snd p) (combine a b).

(** What a user expects of slicing: index [i] of the result refers to the element whose scalar positions
    are fixed and whose other positions are the start of the range plus the entry of [i]. *)
Fixpoint expand (slices : list slice) (i : list Z) : list Z :=
  match slices with
  | [] => []
  | Scalar n :: r => n :: expand r i
  | Range a _ :: r => (a + hd 0 i) :: expand r (tl i)
  | All :: r => hd 0 i :: expand r (tl i)
  end.

(** The extents a user expects: the length of every range, in order. *)
Fixpoint slice_lengths (e : list Z) (slices : list slice) : list Z :=
  match slices with
  | [] => []
  | Scalar _ :: r => slice_lengths (tl e) r
  | Range a b :: r => (b - a) :: slice_lengths (tl e) r
  | All :: r => hd 0 e :: slice_lengths (tl e) r
  end.

(** Number of range arguments. *)
Fixpoint result_rank (slices : list slice) : nat :=
  match slices with [] => O | Scalar _ :: r => result_rank r | _ :: r => S (result_rank r) end.

(** A box has a valid shape: two corners of the rank. *)
Definition box_of_rank (n : nat) (b : IndexBox) : Prop := length (lower b) = n /\ length (upper b) = n.

(** Membership in a half open box. *)
Definition in_box (b : IndexBox) (i : list Z) : Prop := inside (lower b) (upper b) i.

(** The numbers lo, lo+1, ..., hi-1. *)
Definition interval (lo hi : Z) : list Z := map (fun k => lo + Z.of_nat k) (seq 0 (Z.to_nat (hi - lo))).

(** The extents with every dynamic entry (-1) replaced by the next stored value. *)
Fixpoint fill_dynamic (statics dyn : list Z) : list Z :=
  match statics with
  | [] => []
  | s :: r => if Z.eqb s (-1) then hd 0 dyn :: fill_dynamic r (tl dyn) else s :: fill_dynamic r dyn
  end.

(** A view has one origin coordinate per dimension. *)
Definition view_ok (v : PatchDataView) : Prop :=
  length (pdv_origin v) = length (map_extents (md_map (pdv_span v))).

(** A box with at least one index. *)
Definition nonempty (b : IndexBox) : Prop := exists i, in_box b i.

(** The result of [SliceLast] has the strides of all but the last direction. *)
Definition leading_strides_kept (m : mapping) : Prop :=
  match m with
  | LayoutRight e => nthZ e (length e - 1) = 1
  | LayoutStride e s => length s = length e
  | LayoutLeft _ => True
  end.

(** The elements of a row (pointer, number of elements). *)
Definition row_elements (r : row) : list Z := map (fun k => fst r + k) (interval 0 (snd r)).

(** Views of a rank whose elements are contiguous in the first direction *)
Definition row_view (rank : nat) (v : PatchDataView) : Prop :=
  length (map_extents (md_map (pdv_span v))) = rank /\ map_stride (md_map (pdv_span v)) 0 = 1.

(** The extent of a view in direction [r]. *)
Definition extent0 (v : PatchDataView) (r : nat) : Z := nth r (map_extents (md_map (pdv_span v))) 0.

(** The shapes for which a rank 2 iteration is correct: a dense view of positive width, or a strided view
    whose rows do not overlap and which has rows or is narrower than its stride. *)
Definition first_view_ok (m : mapping) : Prop :=
  match m with
  | LayoutLeft [e0; e1] => 0 < e0 /\ 0 <= e1
  | LayoutStride [e0; e1] [s0; s1] => s0 = 1 /\ 0 <= e0 <= s1 /\ 0 < s1 /\ (0 < e1 \/ (e1 = 0 /\ e0 < s1))
  | _ => False
  end.

(** A layout maps the valid indices one-to-one onto the offsets 0 .. number of elements - 1. *)
Definition bijective_layout (m : mapping) : Prop :=
  let e := map_extents m in
  (forall i, valid_index e i -> 0 <= map_index m i < product e) /\
  (forall i j, valid_index e i -> valid_index e j -> map_index m i = map_index m j -> i = j) /\
  (forall k, 0 <= k < product e -> exists i, valid_index e i /\ map_index m i = k).
