(** src/geometry/Cone.cpp: a cone along the first axis, given by the centre of its base, the radius of the base and the height. *)
From Coq Require Import Reals Bool.
From Verif Require Import TubeModel.
Local Open Scope R_scope.

(** Eigen's norm() *)
Definition norm (a : vec) : R := sqrt (vdot a a).
(** std::numeric_limits<double>::epsilon(), Cone.cpp:68 *)
Definition epsilon : R := / 2 ^ 52.
(** The radial direction of the lambda rim_point, lines 67-72: a default close to the axis *)
Definition rim_point (x0 dp_radial : vec) (base_radius : R) : vec :=
  if Rlt_dec (sqrt epsilon) (norm dp_radial) then vadd x0 (vscale base_radius (normalized dp_radial))
  else vadd x0 (vscale base_radius (mkVec 0 1 0)).
(** ConeIF::ComputeDistanceTo, lines 40-87 *)
Definition ConeDistance (x0 : vec) (base_radius height : R) (inside : bool) (p : vec) : R :=
  let normal := mkVec 1 0 0 in
  let sign := if inside then 1 else -1 in
  let l := vdot normal (vsub p x0) in
  let dp_radial := vsub p (vadd x0 (vscale l normal)) in
  let r := norm dp_radial in
  let radius_at_l := (1 - l / height) * base_radius in
  if Rlt_dec l 0 then
    if Rlt_dec r base_radius then sign * - l
    else sign * sqrt (l * l + vdot (vsub x0 (vsub p (vscale l normal))) (vsub x0 (vsub p (vscale l normal))))
  else
    let apex := vadd x0 (vscale height normal) in
    if Rlt_dec height l then sign * norm (vsub p apex)
    else
      let rim := rim_point x0 dp_radial base_radius in
      let face_tangential := normalized (vsub apex rim) in
      let distance_on_face := vdot face_tangential (vsub p rim) in
      if Rlt_dec distance_on_face 0 then sign * sqrt (l * l + vdot (vsub p rim) (vsub p rim))
      else
        let p_on_face := vadd rim (vscale distance_on_face face_tangential) in
        if Rlt_dec radius_at_l r then sign * norm (vsub p_on_face p)
        else sign * - Rmin (norm (vsub p_on_face p)) l.
