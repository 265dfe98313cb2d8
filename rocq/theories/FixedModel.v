(** Tagging of a fixed region for refinement.
    Sources: src/AMReX/tagging_method/ConstantRegion.cpp, src/AMReX/cutcell/tagging_method/ConstantRegion.cpp (the same code), src/AMReX/PatchHierarchy.cpp,
    src/AMReX/cutcell/PatchHierarchy.cpp, src/SAMRAI/tagging_method/ConstantBox.cpp. *)
From Coq Require Import List ZArith Bool.
Import ListNotations.
Local Open Scope Z_scope.

(** amrex::IntVect, one integer for each axis (only the first [rank] axes are looked at) *)
Definition cell := nat -> Z.

(** amrex::Box of cells as used in ConstantRegion.cpp:31-46: first and last cell; SAMRAI::hier::Box has the same content (block numbers are left out) *)
Record box := { smallEnd : cell; bigEnd : cell }.

(** amrex::Box::refine for boxes of cells, called in ConstantRegion.cpp:35 (the library function is modelled from its documentation) *)
Definition refine (b : box) (ratio : cell) : box :=
  {| smallEnd := fun d => smallEnd b d * ratio d; bigEnd := fun d => (bigEnd b d + 1) * ratio d - 1 |}.

(** amrex::Box::operator&, called in ConstantRegion.cpp:46; SAMRAI's Box::intersect in ConstantBox.cpp:39 *)
Definition intersect (a b : box) : box :=
  {| smallEnd := fun d => Z.max (smallEnd a d) (smallEnd b d); bigEnd := fun d => Z.min (bigEnd a d) (bigEnd b d) |}.

(** Cells that a loop over a box visits, as in setVal of ConstantRegion.cpp:47 and in the loop of SAMRAI's ConstantBox.cpp:41 *)
Definition contains (rank : nat) (b : box) (i : cell) : bool :=
  forallb (fun d => (smallEnd b d <=? i d) && (i d <=? bigEnd b d)) (seq 0 rank).

(** PatchHierarchy.cpp:196-202, cutcell/PatchHierarchy.cpp:593-598 [GetRatioToCoarserLevel] *)
Definition GetRatioToCoarserLevel (refine_ratio : cell) (level : nat) : cell :=
  match level with O => fun _ => 1 | _ => refine_ratio end.

(** ConstantRegion.cpp:33-37, the loop of RefineToLevel with the number of its steps; [level] is the same in each step. Numbers do not overflow. *)
Fixpoint RefineSteps (refine_ratio : cell) (level steps : nat) (result : box) : box :=
  match steps with
  | O => result
  | S steps => RefineSteps refine_ratio level steps (refine result (GetRatioToCoarserLevel refine_ratio level))
  end.

(** ConstantRegion.cpp:31-38 [RefineToLevel] *)
Definition RefineToLevel (refine_ratio : cell) (b : box) (level : nat) : box := RefineSteps refine_ratio level level b.

(** The tags of a level for each patch and cell, ConstantRegion.cpp:41 amrex::TagBoxArray *)
Definition tag_array := nat -> cell -> Z.

(** TagBox::setVal(1, where) for one patch, ConstantRegion.cpp:47; the loop in SAMRAI's ConstantBox.cpp:41-44 *)
Definition setVal (rank : nat) (tags : tag_array) (patch : nat) (where_ : box) : tag_array :=
  fun p i => if (p =? patch)%nat && contains rank where_ i then 1 else tags p i.

(** ConstantRegion.cpp:41-49 [ConstantBox::TagCellsForRefinement]; [tiles] are the pairs of a patch and a tile of it that the loop visits *)
Definition TagCellsForRefinement (rank : nat) (coarse_region : box) (refine_ratio : cell) (tiles : list (nat * box)) (tags : tag_array) (level : nat) : tag_array :=
  let region := RefineToLevel refine_ratio coarse_region level in
  fold_left (fun tags tile => setVal rank tags (fst tile) (intersect region (snd tile))) tiles tags.

(** SAMRAI/tagging_method/ConstantBox.cpp:28-46 [ConstantBox::TagCellsForRefinement]; [patches] are the patches of [level] with the boxes of their tags.
    The level selects the patches and has no other use. *)
Definition SamraiTagCells (rank : nat) (b : box) (patches : nat -> list (nat * box)) (tags : tag_array) (level : nat) : tag_array :=
  fold_left (fun tags patch => setVal rank tags (fst patch) (intersect b (snd patch))) (patches level) tags.
