(** Concrete arrays for the examples (not code of /repo). *)
From Coq Require Import List ZArith.
From Verif Require Import ArrayModel ArraySpec.
Import ListNotations.
Local Open Scope Z_scope.

(** A 4 x 3 patch with two components and ghost cells: lower corner (-1, -1, 0). *)
Definition ex_patch : PatchDataView := mkView (mkMdspan 100 (LayoutLeft [4; 3; 2])) [-1; -1; 0].
Definition ex_box : IndexBox := mkBox [0; -1; 0] [2; 1; 2].
Definition ex_box_inner : IndexBox := mkBox [1; 0; 1] [2; 1; 2].

(** A 4 x 3 patch and a second one with one more column (like fluxes). *)
Definition ex_cells : PatchDataView := mkView (mkMdspan 0 (LayoutLeft [4; 3])) [0; 0].
Definition ex_faces : PatchDataView := mkView (mkMdspan 50 (LayoutLeft [5; 3])) [0; 0].
Definition ex_sub : PatchDataView := Subview ex_faces (mkBox [1; 0] [5; 3]).
Definition ex_3d : PatchDataView := mkView (mkMdspan 7 (LayoutLeft [2; 3; 2])) [0; 0; 0].

(** The two boxes overlap. *)
Definition ex_b1 : IndexBox := mkBox [0; -2] [4; 3].
Definition ex_b2 : IndexBox := mkBox [2; 1] [9; 9].
