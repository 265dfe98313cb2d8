(** The stencils of width h at cut cells and the second time integrator.
    Source: include/fub/cutcell_method/HGridReconstruction.hpp, HGridReconstruction2.hpp, MyStabilisation.hpp,
    src/CutCellData.cpp, src/cutcell_method/MyStabilisation.cpp, src/AMReX/cutcell/TimeIntegrator.cpp (two space dimensions).
    Doubles and the exact numbers of CGAL are real numbers. *)
From Coq Require Import List Reals ZArith Bool.
From Verif Require Import MdLimiterModel CutCellModel.
Import ListNotations.
Local Open Scope R_scope.

(** The component of a vector in the direction d (0: x, otherwise y) and the unit vector, Eigen *)
Definition at_dir (d : nat) (v : vec) : R := match d with O => fst v | _ => snd v end.
Definition unit_vector (d : nat) : vec := match d with O => (1, 0) | _ => (0, 1) end.
Definition vsub (a b : vec) : vec := (fst a - fst b, snd a - snd b).
(** Shift of an index, PatchDataView.hpp; LeftTo and RightTo a face are the cells with the shifts -1 and 0 *)
Definition shift (d : nat) (i : index) (k : Z) : index := match d with O => (fst i + k, snd i)%Z | _ => (fst i, snd i + k)%Z end.
Definition LeftTo (d : nat) (face : index) : index := shift d face (-1).
Definition RightTo (d : nat) (face : index) : index := face.
(** The other direction, CutCellData.cpp:152 *)
Definition other (d : nat) : nat := match d with O => 1%nat | _ => O end.

(** GetBoundaryNormal, CutCellData.cpp:90-96 *)
Definition GetBoundaryNormal (geom : geometry) (i : index) : vec := vmul (- (1)) (boundary_normal geom i).

(** GetAbsoluteBoundaryCentroid, CutCellData.hpp:162-174 *)
Definition GetAbsoluteBoundaryCentroid (geom : geometry) (i : index) (dx : vec) : vec :=
  ((IZR (fst i) + fst (boundary_centroid geom i)) * fst dx + 1 / 2 * fst dx,
   (IZR (snd i) + snd (boundary_centroid geom i)) * snd dx + 1 / 2 * snd dx).

(** Intersect, CutCellData.hpp:29-32 *)
Definition Intersect (a b : R * R) : R * R := (Rmax (fst a) (fst b), Rmin (snd a) (snd b)).

(** The part of a face which is not shielded from one side, CutCellData.cpp:163-171 and 173-182: [ny] is the tangential
    component of the stored normal of the cell on that side *)
Definition unshielded_interval (shielded ny : R) : R * R :=
  if Rlt_dec 0 shielded then if Rlt_dec ny 0 then (shielded, 1) else (0, 1 - shielded) else (0, 1).

(** GetAbsoluteUnshieldedCentroid, CutCellData.cpp:146-189; [shL d face] and [shR d face] are geom.shielded_left_fractions
    and geom.shielded_right_fractions *)
Definition GetAbsoluteUnshieldedCentroid (geom : geometry) (shL shR : nat -> index -> R) (face : index) (dx : vec) (d : nat) : vec :=
  let e := other d in
  let regular := match d with
                 | O => (IZR (fst face) * fst dx + 0, IZR (snd face) * snd dx + 1 / 2 * snd dx)
                 | _ => (IZR (fst face) * fst dx + 1 / 2 * fst dx, IZR (snd face) * snd dx + 0)
                 end in
  let uL := unshielded_interval (shL d face) (at_dir e (boundary_normal geom (LeftTo d face))) in
  let uR := unshielded_interval (shR d face) (at_dir e (boundary_normal geom (RightTo d face))) in
  let u := Intersect uL uR in
  let c := 1 / 2 * (fst u + snd u) - 1 / 2 in
  match d with
  | O => (fst regular, snd regular + c * snd dx)
  | _ => (fst regular + c * fst dx, snd regular)
  end.

(** ** Stencils *)

Section Stencils.
(** S: complete states; K: the components of the gradient type (conservative or primitive variables) *)
Variables S K : Type.
(** StateFromComplete, CompleteFromState and Reflect *)
Variable extract : S -> K -> R.
Variable complete : (K -> R) -> S.
Variable reflect : S -> vec -> S.

(** ApplyGradient, HGridReconstruction.hpp:13-32 *)
Definition ApplyGradient (gx gy : K -> R) (x : vec) : K -> R := fun k => gx k * fst x + gy k * snd x.

(** The cell data: the states and the gradients of a patch *)
Record cells := mkCells { states : index -> S; grad_x : index -> K -> R; grad_y : index -> K -> R }.

(** gradients[d] *)
Definition grad_dir (d : nat) (c : cells) (i : index) : K -> R := match d with O => grad_x c i | _ => grad_y c i end.

(** An h-grid: two states and their slopes, MyStabilisation.hpp:157-162 *)
Record stencil := mkStencil { left_state : S; right_state : S; left_slope : K -> R; right_slope : K -> R }.

(** StateFromComplete of the state in the cell i plus its gradients applied to x - xM, e.g. HGridReconstruction.hpp:672-683 *)
Definition value_at (c : cells) (geom : geometry) (dx : vec) (i : index) (x : vec) : K -> R :=
  fun k => extract (states c i) k + ApplyGradient (grad_x c i) (grad_y c i) (vsub x (GetAbsoluteVolumeCentroid geom i dx)) k.

(** HGridReconstruction::ReconstructRegularStencil, HGridReconstruction.hpp:650-698 *)
Definition ReconstructRegularStencil (c : cells) (geom : geometry) (shL shR : nat -> index -> R) (face : index) (dx : vec) (d : nat) : stencil :=
  let iL := LeftTo d face in
  let iR := RightTo d face in
  let xM := GetAbsoluteUnshieldedCentroid geom shL shR face dx d in
  let xL := vadd xM (vmul (- (1 / 2) * at_dir d dx) (unit_vector d)) in
  let xR := vadd xM (vmul (1 / 2 * at_dir d dx) (unit_vector d)) in
  mkStencil (complete (value_at c geom dx iL xL)) (complete (value_at c geom dx iR xR)) (grad_dir d c iL) (grad_dir d c iR).

(** ** The state at the wall *)

(** HGridIntegrationPoints, CutCellData.hpp:34-44: volume, centroid and cell of each part *)
Definition source := (R * vec * index)%type.
Definition volume_of (s : source) : R := fst (fst s).
Definition point_of (s : source) : vec := snd (fst s).
Definition cell_of (s : source) : index := snd s.

(** The parts which the loops visit: up to the first zero volume, HGridReconstruction.hpp:331, 408 *)
Fixpoint visited (l : list source) : list source :=
  match l with
  | [] => []
  | s :: rest => if Req_EM_T (volume_of s) 0 then [] else s :: visited rest
  end.
(** The parts visited by Centroid, CutCellData.cpp:78 *)
Fixpoint visited_positive (l : list source) : list source :=
  match l with
  | [] => []
  | s :: rest => if Rlt_dec 0 (volume_of s) then s :: visited_positive rest else []
  end.
Definition total (f : source -> R) (l : list source) : R := fold_right (fun s t => f s + t) 0 l.

(** Centroid, CutCellData.cpp:72-88 *)
Definition Centroid (l : list source) : vec :=
  let v := visited_positive l in
  (total (fun s => volume_of s * fst (point_of s)) v / total volume_of v,
   total (fun s => volume_of s * snd (point_of s)) v / total volume_of v).

(** IntegrateCellState with the evaluated parts, HGridReconstruction.hpp:316-358: the value and the gradients in the x, y
    and z direction (the latter is not modelled).  Lines 341-342 add du0dx to all gradients. *)
Definition IntegrateParts (u dudx dudy : source -> K -> R) (l : list source) : (K -> R) * (K -> R) * (K -> R) :=
  let total_volume := total volume_of l in
  let mean (f : source -> K -> R) := fun k => total (fun s => volume_of s / total_volume * f s k) (visited l) in
  (mean u, mean dudx, mean dudx).

(** What IntegrateCellState leaves in its arguments: state, gradients *)
Definition reference := (S * (K -> R) * (K -> R))%type.

(** IntegrateCellState, HGridReconstruction.hpp:389-433.  [inside] is Contains(Box<0>(states), index).  The result is the
    returned value and the arguments afterwards: unchanged if there is no volume (lines 397-399); with the old state and
    zero gradients (lines 401-403) if one of the cells is outside or solid (lines 429-431). *)
Definition IntegrateCellState (inside : index -> bool) (c : cells) (geom : geometry) (dx : vec) (l : list source) (old : reference) : bool * reference :=
  if Req_EM_T (total volume_of l) 0 then (false, old)
  else if forallb (fun s => inside (cell_of s) && (if Rlt_dec 0 (volume_fraction geom (cell_of s)) then true else false)) (visited l)
  then let '(u, gx, gy) := IntegrateParts (fun s => value_at c geom dx (cell_of s) (point_of s)) (fun s => grad_x c (cell_of s)) (fun s => grad_y c (cell_of s)) l in
       (true, (complete u, gx, gy))
  else (false, (fst (fst old), fun _ => 0, fun _ => 0)).

(** ComputeBoundaryStates, MyStabilisation.hpp:221-245: the cut cells [is] in the order of the loop; [points] are the
    integration points of each cell.  The scratch variables keep their values from cell to cell, the returned value is
    ignored. *)
Fixpoint ComputeBoundaryStates (inside : index -> bool) (c : cells) (geom : geometry) (dx : vec) (points : index -> list source)
                               (is : list index) (scratch : reference) (refs : index -> reference) : index -> reference :=
  match is with
  | [] => refs
  | i :: rest =>
      let scratch' := snd (IntegrateCellState inside c geom dx (points i) scratch) in
      ComputeBoundaryStates inside c geom dx points rest scratch'
        (fun j => if ((fst j =? fst i) && (snd j =? snd i))%Z then scratch' else refs j)
  end.

(** LinearFunctional::EvalAt, HGridReconstruction2.hpp:18-26 *)
Definition EvalAt (r : reference) (x0 x : vec) : S :=
  let '(q, gx, gy) := r in complete (fun k => extract q k + ApplyGradient gx gy (vsub x x0) k).

(** HGridReconstruction2::ReconstructEmbeddedBoundaryStencil, HGridReconstruction2.hpp:146-252.  [face d j] is
    geom.face_fractions; [r] the reference state of the cell, [x0] the centroid of its integration points.  With equal face
    fractions nothing is written. *)
Definition ReconstructEmbeddedBoundaryStencil (geom : geometry) (face : nat -> index -> R) (r : reference) (x0 : vec)
                                              (i : index) (h : vec) (d : nat) (old : stencil) : stencil :=
  let betaL := face d i in
  let betaR := face d (shift d i 1) in
  let xB := GetAbsoluteBoundaryCentroid geom i h in
  let xN := GetBoundaryNormal geom i in
  let e := unit_vector d in
  let er := vsub e (vmul (2 * vdot e xN) xN) in
  let '(_, gx, gy) := r in
  let slope_in := match d with O => gx | _ => gy end in
  if Rlt_dec betaL betaR then
    let interior := EvalAt r x0 (vadd xB (vmul (1 / 2 * at_dir d h) e)) in
    let boundary := reflect (EvalAt r x0 (vsub xB (vmul (1 / 2 * at_dir d h) er))) xN in
    mkStencil boundary interior (ApplyGradient gx gy er) slope_in
  else if Rlt_dec betaR betaL then
    let interior := EvalAt r x0 (vsub xB (vmul (1 / 2 * at_dir d h) e)) in
    let boundary := reflect (EvalAt r x0 (vadd xB (vmul (1 / 2 * at_dir d h) er))) xN in
    mkStencil interior boundary slope_in (ApplyGradient gx gy er)
  else old.

(** HGridReconstruction2::ReconstructSinglyShieldedStencil, HGridReconstruction2.hpp:255-395; [eb] is the stencil at the wall *)
Definition ReconstructSinglyShieldedStencil (c : cells) (geom : geometry) (face : nat -> index -> R) (eb : stencil)
                                            (i : index) (dx : vec) (d : nat) (old : stencil) : stencil :=
  let betaL := face d i in
  let betaR := face d (shift d i 1) in
  let h := at_dir d dx in
  let xB := GetAbsoluteBoundaryCentroid geom i dx in
  let e := unit_vector d in
  if Rlt_dec betaL betaR then
    let alpha := 1 / 2 - at_dir d (boundary_centroid geom i) in
    let iR := shift d i 1 in
    let scratch := value_at c geom dx iR (vadd xB (vmul ((alpha + 1 / 2) * h) e)) in
    let boundary := extract (right_state eb) in
    let right_value := fun k => (1 - alpha) * (boundary k + 1 / 2 * alpha * h * right_slope eb k)
                                + alpha * (scratch k + 1 / 2 * (1 - alpha) * h * grad_dir d c iR k) in
    let right_grad := fun k => (1 - alpha) * right_slope eb k + alpha * grad_dir d c iR k in
    let scratch' := value_at c geom dx i (vadd xB (vmul (1 / 2 * alpha * h) e)) in
    let boundary' := extract (left_state eb) in
    let left_value := fun k => (1 - alpha) * (boundary' k + 1 / 2 * alpha * h * left_slope eb k) + alpha * scratch' k in
    let left_grad := fun k => (1 - alpha) * left_slope eb k + alpha * grad_dir d c i k in
    mkStencil (complete left_value) (complete right_value) left_grad right_grad
  else if Rlt_dec betaR betaL then
    let alpha := 1 / 2 + at_dir d (boundary_centroid geom i) in
    let iL := shift d i (-1) in
    let scratch := value_at c geom dx iL (vsub xB (vmul ((alpha + 1 / 2) * h) e)) in
    let boundary := extract (left_state eb) in
    let left_value := fun k => (1 - alpha) * (boundary k - 1 / 2 * alpha * h * left_slope eb k)
                               + alpha * (scratch k - 1 / 2 * (1 - alpha) * h * grad_dir d c iL k) in
    let left_grad := fun k => (1 - alpha) * left_slope eb k + alpha * grad_dir d c iL k in
    let scratch' := value_at c geom dx i (vsub xB (vmul (1 / 2 * alpha * h) e)) in
    let boundary' := extract (right_state eb) in
    let right_value := fun k => (1 - alpha) * (boundary' k - 1 / 2 * alpha * h * right_slope eb k) + alpha * scratch' k in
    let right_grad := fun k => (1 - alpha) * right_slope eb k + alpha * grad_dir d c i k in
    mkStencil (complete left_value) (complete right_value) left_grad right_grad
  else old.

End Stencils.

(** ** Fluxes *)

(** The data of one face, MyStabilisation.cpp:36-47 *)
Record my_face := mkMy { my_regular : R; my_left : R; my_right : R; my_us : R; my_bL : R; my_bR : R }.

(** One lane, MyStabilisation.cpp:56-64 *)
Definition my_stable_lane (f : my_face) : R := my_us f * my_regular f + my_bL f * my_left f + my_bR f * my_right f.
(** MyStabilisation.cpp:66-78 *)
Definition my_stable (f : my_face) : R := my_us f * my_regular f + my_bL f * my_left f + my_bR f * my_right f.
(** ComputeStableFluxes_Row, MyStabilisation.cpp:49-79 *)
Definition MyStab_Row (w : nat) : list my_face -> option (list R) := run_row w (map my_stable_lane) my_stable.

(** TimeIntegrator2::UpdateConservatively in one cell, TimeIntegrator.cpp:445-476: [None] is the failed assertion of line
    459; solid cells keep their values. *)
Definition update2 (k : R) (prev fL fR fB alpha bL bR : R) : option R :=
  if Rlt_dec 0 alpha then
    if Req_EM_T bL bR then
      if Req_EM_T alpha bL then Some (prev + k * (fL - fR)) else None
    else
      let dB := bL - bR in
      Some (prev + k / alpha * (bL * fL - bR * fR - dB * fB))
  else Some prev.
