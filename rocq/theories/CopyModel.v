(** Copies of a patch level.
    Source: src/AMReX/PatchHierarchy.cpp:51-149 (called H below), include/fub/AMReX/PatchHierarchy.hpp. *)
From Coq Require Import List Reals ZArith.
Import ListNotations.

(** amrex::IndexType of the box arrays in H:63-64, 73-74, 82, 91, 125-126, 131-144 *)
Inductive centering := OnCells | OnNodes | OnFaces (axis : nat).

(** amrex::MultiFab as used in H:55-98: boxes and their owners are any lists of numbers, the arena is a number; [valid] and [ghost] are the values of all cells, numbered in some way *)
Record multifab := { boxes : list nat; center : centering; owners : list nat; n_comp : nat; n_grow : nat; arena : nat; valid : nat -> R; ghost : nat -> R }.

(** PatchHierarchy.hpp [PatchLevel]; the array of faces has three entries *)
Record level := { level_number : nat; time_point : R; cycles : Z; box_array : list nat; mapping : list nat;
  data : option multifab; nodes : option multifab; face0 : option multifab; face1 : option multifab; face2 : option multifab }.

(** The constructor of MultiFab, H:56-59, 65-69, 75-79 and so on; the new memory has the arbitrary contents [junk] *)
Definition new_multifab (b : list nat) (c : centering) (o : list nat) (ncomp ngrow arena_ : nat) (junk : nat -> R) : multifab :=
  {| boxes := b; center := c; owners := o; n_comp := ncomp; n_grow := ngrow; arena := arena_; valid := junk; ghost := junk |}.

(** dest.ParallelCopy(src), H:60, 70, 80, 88, 97: all components of the valid cells, between data on the same boxes; with another centering nothing is said about the result *)
Definition ParallelCopy (dest src : multifab) : multifab :=
  match center dest, center src with
  | OnCells, OnCells | OnNodes, OnNodes =>
      {| boxes := boxes dest; center := center dest; owners := owners dest; n_comp := n_comp dest; n_grow := n_grow dest; arena := arena dest; valid := valid src; ghost := ghost dest |}
  | OnFaces a, OnFaces b =>
      if Nat.eqb a b then {| boxes := boxes dest; center := center dest; owners := owners dest; n_comp := n_comp dest; n_grow := n_grow dest; arena := arena dest; valid := valid src; ghost := ghost dest |}
      else dest
  | _, _ => dest
  end.

(** p->arena() for a pointer, H:78, 86, 95; None: the pointer is null, undefined behaviour *)
Definition arena_of (p : option multifab) : option nat := match p with Some m => Some (arena m) | None => None end.

(** H:73-80, 81-89 and 90-98: the copy of one array of faces, [arena_from] is the array whose arena is used. None: undefined behaviour *)
Definition CopyFace (b o : list nat) (axis : nat) (from arena_from : option multifab) (junk : nat -> R) : option (option multifab) :=
  match from with
  | None => Some None
  | Some f => match arena_of arena_from with
              | None => None
              | Some a => Some (Some (ParallelCopy (new_multifab b (OnFaces axis) o (n_comp f) (n_grow f) a junk) f))
              end
  end.

(** H:51-100, the copy constructor; assignment (H:102-105) makes a copy and moves it. None: undefined behaviour *)
Definition CopyLevel (junk : nat -> R) (other : level) : option level :=
  let b := box_array other in
  let o := mapping other in
  let data_ := match data other with Some d => Some (ParallelCopy (new_multifab b OnCells o (n_comp d) (n_grow d) (arena d) junk) d) | None => None end in
  let nodes_ := match nodes other with Some d => Some (ParallelCopy (new_multifab b OnNodes o (n_comp d) (n_grow d) (arena d) junk) d) | None => None end in
  let result := fun f0 f1 f2 => {| level_number := level_number other; time_point := time_point other; cycles := cycles other; box_array := b; mapping := o;
                                   data := data_; nodes := nodes_; face0 := f0; face1 := f1; face2 := f2 |} in
  match face0 other with
  | None => Some (result None None None)
  | Some _ =>
    match CopyFace b o 0 (face0 other) (face0 other) junk, CopyFace b o 2 (face2 other) (face1 other) junk, CopyFace b o 1 (face1 other) (face2 other) junk with
    | Some f0, Some f2, Some f1 => Some (result f0 f1 f2)
    | _, _, _ => None
    end
  end.

(** H:114-149, the constructor from a data description with numbers of components and a dimension; the contents of each array are arbitrary, which covers all values written later *)
Definition MakeLevel (number : nat) (tp : R) (c : Z) (b o : list nat) (n_state n_node n_face dimension arena_ : nat) (contents : nat -> nat -> R) : level :=
  let mf := fun slot center_ n => match n with O => None | _ => Some (new_multifab b center_ o n 0 arena_ (contents slot)) end in
  {| level_number := number; time_point := tp; cycles := c; box_array := b; mapping := o;
     data := mf 0 OnCells n_state; nodes := mf 1 OnNodes n_node; face0 := mf 2 (OnFaces 0) n_face;
     face1 := match dimension with 2 | 3 => mf 3 (OnFaces 1) n_face | _ => None end;
     face2 := match dimension with 3 => mf 4 (OnFaces 2) n_face | _ => None end |}.
