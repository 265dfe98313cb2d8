(** Model of the cells and faces for which fluxes are computed, src/AMReX/ViewFArrayBox.cpp and include/fub/AMReX/FluxMethodAdapter.hpp. *)
From Coq Require Import ZArith List Arith.
Import ListNotations.
Local Open Scope Z_scope.

(** amrex::Box: closed bounds for each axis (axes are numbered 0, 1, ...). The faces normal to an axis have as many nodes on this axis as there are cells, plus 1;
    the face i lies between the cells i - 1 and i. *)
Definition box := nat -> Z * Z.
(** operator& of amrex::Box (used in ViewFArrayBox.cpp:72 and 75) *)
Definition inter (a b : box) : box := fun d => (Z.max (fst (a d)) (fst (b d)), Z.min (snd (a d)) (snd (b d))).
(** amrex::grow in one direction (lines 73 and 77) *)
Definition grow (b : box) (dir : nat) (n : Z) : box := fun d => if (d =? dir)%nat then (fst (b d) - n, snd (b d) + n) else b d.
(** amrex::enclosedCells of a box of faces normal to [dir] (line 73) *)
Definition enclosedCells (b : box) (dir : nat) : box := fun d => if (d =? dir)%nat then (fst (b d), snd (b d) - 1) else b d.
(** amrex::surroundingNodes of a box of cells (line 76) *)
Definition surroundingNodes (b : box) (dir : nat) : box := fun d => if (d =? dir)%nat then (fst (b d), snd (b d) + 1) else b d.

(** GetCellsAndFacesInStencilRange, lines 66-79 *)
Definition GetCellsAndFacesInStencilRange (cell_validbox face_tilebox : box) (stencil_width : Z) (dir : nat) : box * box :=
  let cell_tilebox := inter cell_validbox (grow (enclosedCells face_tilebox dir) dir stencil_width) in
  let face_tilebox_in_range := inter face_tilebox (surroundingNodes (grow cell_tilebox dir (- stencil_width)) dir) in
  (cell_tilebox, face_tilebox_in_range).

(** Whether a position is in a box (amrex::Box::contains) *)
Fixpoint containsb (dim : nat) (b : box) (i : nat -> Z) : bool :=
  match dim with O => true | S n => ((fst (b n) <=? i n) && (i n <=? snd (b n)))%bool && containsb n b i end.
(** FluxMethodAdapter::ComputeNumericFluxes, FluxMethodAdapter.hpp:134-147: for each tile the flux method stores the fluxes of all faces of [face_box], computed
    from the cells at the positions - width, ..., width - 1 around the face (the k-th view of include/fub/flux_method/FluxMethod.hpp:254-262 starts k cells after the first cell of the cell box and is walked in step with the faces) *)
Definition ComputeNumericFluxes {A F : Type} (dim : nat) (flux : list A -> F) (cell_validbox : box) (tiles : list box) (width : nat) (dir : nat) (cells : (nat -> Z) -> A) (fluxes : (nat -> Z) -> F) : (nat -> Z) -> F :=
  fold_left (fun fl tile =>
    let '(cell_box, face_box) := GetCellsAndFacesInStencilRange cell_validbox tile (Z.of_nat width) dir in
    fun i => if containsb dim face_box i
             then flux (map (fun k => cells (fun d => if (d =? dir)%nat then fst (cell_box d) + (i d - fst (face_box d)) + Z.of_nat k else i d)) (seq 0 (2 * width)))
             else fl i) tiles fluxes.
