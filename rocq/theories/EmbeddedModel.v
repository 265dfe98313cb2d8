(** The flux through the embedded boundary of cut cells.
    Sources: include/fub/cutcell_method/KbnStabilisation.hpp, src/CutCellData.cpp, include/fub/ext/Eigen.hpp.
    States are those of [GasModel]; the Riemann solver is the exact one of [RiemannModel].  The number of space
    dimensions is the length of the normal vector, 2 or 3. *)
From Coq Require Import List Reals ZArith Bool.
From Verif Require Import GasModel NewtonModel RiemannModel.
Import ListNotations.
Local Open Scope R_scope.

(** UnitVector<Rank>(Direction::X), Eigen.hpp:95-102 *)
Definition unit_x (rank : nat) : list R := 1 :: repeat 0 (rank - 1).

(** MakeRotation(normal, unit), KbnStabilisation.hpp:201, 225, 232.  The template argument Rank chooses between
    Eigen.hpp:104-115 and 117-130; a vector of another length does not occur. *)
Definition rotation_to_x (n : list R) : list (list R) :=
  match n with
  | [x; y] => rows2 (MakeRotation2 (x, y) (1, 0))
  | [x; y; z] => rows3 (MakeRotation3 (x, y, z) (1, 0, 0))
  | _ => []
  end.

(** MakeRotation(unit, normal), KbnStabilisation.hpp:205, 228, 236 *)
Definition rotation_from_x (n : list R) : list (list R) :=
  match n with
  | [x; y] => rows2 (MakeRotation2 (1, 0) (x, y))
  | [x; y; z] => rows3 (MakeRotation3 (1, 0, 0) (x, y, z))
  | _ => []
  end.

(** GetBoundaryNormal, CutCellData.cpp:90-105: the stored normal vectors point out of the fluid *)
Definition GetBoundaryNormal (boundary_normals : list R) : list R := map Ropp boundary_normals.

(** KbnStabilisation.hpp:201-205 and 232-236: the Riemann problem between the state and its mirror image at the wall;
    [old] is the old content of solution_.  [None]: the Riemann solver throws or fails an assertion. *)
Definition WallRiemannProblem (g : gas) (old state : Complete) (normal : list R) : option Complete :=
  let rotated := Rotate state (rotation_to_x normal) in
  let reflected := Reflect rotated (unit_x (length normal)) in
  option_map (fun solution => Rotate solution (rotation_from_x normal))
             (SolveRiemannProblem g old reflected rotated 0).

(** KbnStabilisation.hpp:196-209 [PreAdvanceHierarchy] for one cell: the new content of [references].  The member
    solution_ is passed as [old]. *)
Definition ReferenceState (g : gas) (old reference : Complete) (is_cut_cell : bool) (state : Complete)
                          (boundary_normals : list R) : option Complete :=
  if is_cut_cell then
    if Rlt_dec 0 (density state) then WallRiemannProblem g old state (GetBoundaryNormal boundary_normals)
    else Some reference
  else Some reference.

(** KbnStabilisation.hpp:222-228: the Riemann problem with a prescribed state behind the wall *)
Definition MaskedRiemannProblem (g : gas) (old mirror state : Complete) (normal : list R) : option Complete :=
  let rotated := Rotate state (rotation_to_x normal) in
  option_map (fun solution => Rotate solution (rotation_from_x normal))
             (SolveRiemannProblem g old mirror rotated 0).

(** KbnStabilisation.hpp:213-247 [ComputeBoundaryFlux]; [dir] is the number of the direction *)
Definition ComputeBoundaryFlux (g : gas) (old state reference mirror : Complete) (normal : list R) (mask : bool)
                               (dir : nat) : option Cons :=
  let flux := Flux reference dir in
  match (if mask then MaskedRiemannProblem g old mirror state normal else WallRiemannProblem g old state normal) with
  | None => None
  | Some solution =>
      Some (mkCons (c_density flux) (add_at dir (pressure solution - pressure reference) (c_momentum flux)) (c_energy flux))
  end.
