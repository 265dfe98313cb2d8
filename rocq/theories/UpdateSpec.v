(** Vocabulary for the properties of cell-wise updates. *)
From Coq Require Import List ZArith Reals.
From Verif Require Import ArrayModel ArraySpec UpdateModel.
Import ListNotations.
Local Open Scope Z_scope.

(** The value stored at an element. *)
Definition val (m : memory) (a : Z) : R := match m a with Some x => x | None => 0%R end.

(** Elements a program may access. *)
Definition allocated (m : memory) (a : Z) : Prop := m a <> None.

(** A job: the elements to write and the elements to read for one cell. *)
Definition job := (list Z * list Z)%type.

(** All jobs are done with the scalar kernel [K]: every written element has the value the kernel computes from
    the values before, everything else is unchanged. *)
Definition jobs_done (K : list R -> list R) (jobs : list job) (m m' : memory) : Prop :=
  (forall a j, In a jobs -> (j < length (fst a))%nat ->
     m' (nth j (fst a) 0) = Some (nth j (K (map (val m) (snd a))) 0%R)) /\
  (forall x, (forall a, In a jobs -> ~ In x (fst a)) -> m' x = m x).

(** No element is written twice, and no element written by one job is read by a different job
    (a job may overwrite its own inputs: in-place updates are allowed). *)
Definition conflict_free (jobs : list job) : Prop :=
  NoDup jobs /\ (forall a, In a jobs -> NoDup (fst a)) /\
  (forall a b x, In a jobs -> In b jobs -> In x (fst a) -> In x (fst b) \/ In x (snd b) -> a = b).

(** All elements of all jobs may be accessed. *)
Definition jobs_allocated (jobs : list job) (m : memory) : Prop :=
  forall a x, In a jobs -> In x (fst a) \/ In x (snd a) -> allocated m x.

(** A kernel on vectors of [width] lanes computes in every lane what the scalar kernel computes from the
    values in that lane; [ns] and [nd] are the numbers of sources and results. *)
Definition lanewise (width ns nd : nat) (kernel : list (list R) -> list (list R)) (K : list R -> list R) : Prop :=
  forall vs, length vs = ns -> Forall (fun v => length v = width) vs ->
    length (kernel vs) = nd /\ Forall (fun v => length v = width) (kernel vs) /\
    forall i, (i < width)%nat ->
      map (fun v => nth i v 0%R) (kernel vs) = K (map (fun v => nth i v 0%R) vs).

(** Jobs of the conservative update: cell, and the two faces left and right of it. *)
Definition update_job (next prev fluxes : PatchDataView) (dir : nat) (cell : list Z) : job :=
  ([pdv_at next cell], [pdv_at prev cell; pdv_at fluxes cell; pdv_at fluxes (Shift cell dir 1)]).

(** The shapes of the first view for which iterating over rows is correct (see C24). *)
Definition rows_shape (rank : nat) (m0 : mapping) : Prop :=
  match rank with
  | 1%nat => 0 <= nth 0 (map_extents m0) 0
  | 2%nat => first_view_ok m0
  | 3%nat => 0 <= nth 0 (map_extents m0) 0 /\ 0 <= nth 1 (map_extents m0) 0 /\ 0 <= nth 2 (map_extents m0) 0
  | _ => False
  end.

(** A strided view of rank [n] (StridedDataView) whose elements are contiguous in the first direction. *)
Definition strided_view (n : nat) (v : PatchDataView) : Prop :=
  exists e s, md_map (pdv_span v) = LayoutStride e s /\
    length e = n /\ length s = n /\ length (pdv_origin v) = n /\ nth 0 s 0 = 1.

(** One to three space directions, a non-empty box whose rows do not overlap (only needed in 2d), and at
    least zero components. *)
Definition update_shape (rank : nat) (next : PatchDataView) : Prop :=
  (rank = 1 \/ rank = 2 \/ rank = 3)%nat /\
  (forall r, (r < rank)%nat -> 0 < extent0 next r) /\ 0 <= extent0 next rank /\
  (rank = 2%nat -> extent0 next 0 <= map_stride (md_map (pdv_span next)) 1).

(** Jobs of the flux computation for one face: the stencil are the [width] cells left and right of it. *)
Definition flux_job (fluxes states : list PatchDataView) (dir width : nat) (face : list Z) : job :=
  (map (fun v => pdv_at v face) fluxes,
   flat_map (fun i => map (fun v => pdv_at v (Shift face dir (Z.of_nat i - Z.of_nat width))) states) (seq 0 (2 * width))).

(** One to three space directions, a non-empty box of faces whose rows do not overlap (2d). *)
Definition flux_shape (rank : nat) (f0 : PatchDataView) : Prop :=
  (rank = 1 \/ rank = 2 \/ rank = 3)%nat /\
  (forall r, (r < rank)%nat -> 0 < extent0 f0 r) /\
  (rank = 2%nat -> extent0 f0 0 <= map_stride (md_map (pdv_span f0)) 1).

(** The update can be carried out cell by cell: distinct cells of the destination are distinct elements; an
    element of the destination is a source element of at most the same cell (in-place updates); fluxes are
    not overwritten; everything may be accessed. *)
Definition update_data_ok (m : memory) (next prev fluxes : PatchDataView) (dir : nat) : Prop :=
  (forall c c', in_box (pdv_box next) c -> in_box (pdv_box next) c' ->
     (pdv_at next c' = pdv_at next c -> c' = c) /\ (pdv_at prev c' = pdv_at next c -> c' = c) /\
     pdv_at fluxes c' <> pdv_at next c /\ pdv_at fluxes (Shift c' dir 1) <> pdv_at next c) /\
  (forall c, in_box (pdv_box next) c ->
     allocated m (pdv_at next c) /\ allocated m (pdv_at prev c) /\
     allocated m (pdv_at fluxes c) /\ allocated m (pdv_at fluxes (Shift c dir 1))).

(** The same for the computation of fluxes: distinct elements for distinct faces and components, states
    are not overwritten. *)
Definition flux_data_ok (m : memory) (box : IndexBox) (fluxes states : list PatchDataView) (dir width : nat) : Prop :=
  (forall f f' i j, in_box box f -> in_box box f' -> (i < length fluxes)%nat -> (j < length fluxes)%nat ->
     pdv_at (nth i fluxes (nth 0 fluxes (mkView (mkMdspan 0 (LayoutLeft [])) []))) f =
     pdv_at (nth j fluxes (nth 0 fluxes (mkView (mkMdspan 0 (LayoutLeft [])) []))) f' -> f = f' /\ i = j) /\
  (forall f f' g s k, in_box box f -> in_box box f' -> In g fluxes -> In s states -> - Z.of_nat width <= k < Z.of_nat width ->
     pdv_at s (Shift f' dir k) <> pdv_at g f) /\
  (forall f g, in_box box f -> In g fluxes -> allocated m (pdv_at g f)) /\
  (forall f s k, in_box box f -> In s states -> - Z.of_nat width <= k < Z.of_nat width ->
     allocated m (pdv_at s (Shift f dir k))).

(** Sum of a list of numbers. *)
Definition Rsum (l : list R) : R := fold_right Rplus 0%R l.

(** [cells] consists of whole lines of the box in direction [dir]: single lines, all cells of one component,
    the whole box, ... *)
Definition whole_lines (b : IndexBox) (dir : nat) (cells : list (list Z)) : Prop :=
  NoDup cells /\ (forall c, In c cells -> in_box b c) /\
  (forall c k, In c cells -> in_box b (Shift c dir k) -> In (Shift c dir k) cells).

(** The elements of the array are stored densely and may be accessed. *)
Definition stored (m : memory) (n : nat) (v : PatchDataView) : Prop :=
  view_ok v /\ length (pdv_origin v) = n /\ extents_ok (map_extents (md_map (pdv_span v))) /\
  (forall e s, md_map (pdv_span v) <> LayoutStride e s) /\
  (forall i, in_box (pdv_box v) i -> allocated m (pdv_at v i)).

(** Two arrays do not share elements. *)
Definition apart (v w : PatchDataView) : Prop :=
  forall i j, in_box (pdv_box v) i -> in_box (pdv_box w) j -> pdv_at v i <> pdv_at w j.
