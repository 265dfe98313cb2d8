(** Gradients in cut cells.  Source: include/fub/cutcell_method/MdGradients.hpp (two space dimensions).
    All computations are done for each component of the state separately; [u] is the field of one component. *)
From Coq Require Import List Reals ZArith Bool Lra.
From Verif Require Import MdLimiterModel.
Import ListNotations.
Local Open Scope R_scope.

(** The neighbours and the faces of a cell, MdGradients.hpp:97-109 *)
Definition neighbor (i : index) (n : nat) : index :=
  match n with
  | 0 => (fst i - 1, snd i)%Z
  | 1 => (fst i + 1, snd i)%Z
  | 2 => (fst i, snd i - 1)%Z
  | _ => (fst i, snd i + 1)%Z
  end.

(** edges[n][2], MdGradients.hpp:97-99 *)
Definition edge_direction (n : nat) : nat := match n with 0 => 0 | 1 => 0 | _ => 1 end%nat.

(** betas, MdGradients.hpp:97-104; [face d j] is geom.face_fractions[d](j) *)
Definition beta (face : nat -> index -> R) (i : index) (n : nat) : R :=
  match n with
  | 0 => face 0%nat i
  | 1 => face 0%nat (fst i + 1, snd i)%Z
  | 2 => face 1%nat i
  | _ => face 1%nat (fst i, snd i + 1)%Z
  end.

(** alphas, MdGradients.hpp:108-112 *)
Definition alpha (geom : geometry) (i : index) (n : nat) : R := volume_fraction geom (neighbor i n).

(** The comparison of std::sort, MdGradients.hpp:114-116.  It is reflexive, so that the C++ standard does not say
    what std::sort does. *)
Definition comes_first (face : nat -> index -> R) (geom : geometry) (i : index) (m n : nat) : bool :=
  (if Rle_dec (beta face i n) (beta face i m) then true else false) &&
  (if Rle_dec (alpha geom i n) (alpha geom i m) then true else false).

(** std::sort of at most 16 elements is in libstdc++ an insertion sort (bits/stl_algo.h: __insertion_sort and
    __unguarded_linear_insert): a new element which comes before the first is moved to the front, otherwise it moves to the
    left as long as it comes before its left neighbour.  [insert_back] works on the reversed prefix. *)
Fixpoint insert_back (first : nat -> nat -> bool) (v : nat) (reversed : list nat) : list nat :=
  match reversed with
  | [] => [v]
  | x :: rest => if first v x then x :: insert_back first v rest else v :: reversed
  end.
Definition insert (first : nat -> nat -> bool) (prefix : list nat) (v : nat) : list nat :=
  match prefix with
  | [] => [v]
  | x :: _ => if first v x then v :: prefix else rev (insert_back first v (rev prefix))
  end.
Definition sort4 (first : nat -> nat -> bool) : list nat := fold_left (insert first) [1; 2; 3]%nat [0%nat].

(** A.colPivHouseholderQr().solve(b), MdGradients.hpp:259, 274: the least squares solution, here from the normal
    equations; [None] if the rows of A are dependent (Eigen then returns some minimiser). *)
Definition sum_of (f : vec * R -> R) (rows : list (vec * R)) : R := fold_right (fun r s => f r + s) 0 rows.
Definition least_squares (rows : list (vec * R)) : option vec :=
  let xx := sum_of (fun r => fst (fst r) * fst (fst r)) rows in
  let xy := sum_of (fun r => fst (fst r) * snd (fst r)) rows in
  let yy := sum_of (fun r => snd (fst r) * snd (fst r)) rows in
  let xb := sum_of (fun r => fst (fst r) * snd r) rows in
  let yb := sum_of (fun r => snd (fst r) * snd r) rows in
  if Req_EM_T (xx * yy - xy * xy) 0 then None
  else Some ((xb * yy - xy * yb) / (xx * yy - xy * xy), (xx * yb - xb * xy) / (xx * yy - xy * xy)).

(** ComputeGradients of the scalar quantities, MdGradients.hpp:249-278: [js] are the cells x[1], x[2], ... *)
Definition ComputeGradientFrom (geom : geometry) (u : index -> R) (dx : vec) (i : index) (js : list index) : option vec :=
  let xM := GetAbsoluteVolumeCentroid geom i dx in
  least_squares (map (fun j => let x := GetAbsoluteVolumeCentroid geom j dx in
                               ((fst x - fst xM, snd x - snd xM), u j - u i)) js).

Definition positive (x : R) : bool := if Rlt_dec 0 x then true else false.
Definition is_one (x : R) : bool := if Req_EM_T x 1 then true else false.

(** MdGradients.hpp:68-180 for one cell and one component; [slope] is the one dimensional gradient method applied to three
    values and the cell size.  [None]: a failed assertion (or dependent rows). *)
Definition CellGradient (slope : R -> R -> R -> R -> R) (face : nat -> index -> R) (geom : geometry) (u : index -> R)
                        (dx : vec) (i : index) : option vec :=
  if is_one (volume_fraction geom i) && is_one (volume_fraction geom (neighbor i 1)) && is_one (volume_fraction geom (neighbor i 0))
     && is_one (volume_fraction geom (neighbor i 3)) && is_one (volume_fraction geom (neighbor i 2))
  then Some (slope (u (neighbor i 0)) (u i) (u (neighbor i 1)) (fst dx), slope (u (neighbor i 2)) (u i) (u (neighbor i 3)) (snd dx))
  else if Req_EM_T (volume_fraction geom i) 0 then Some (0, 0)
  else
    let is := sort4 (comes_first face geom i) in
    let n0 := nth 0 is 0%nat in
    let n1 := nth 1 is 0%nat in
    let n2 := nth 2 is 0%nat in
    let n3 := nth 3 is 0%nat in
    if negb (positive (beta face i n2)) then
      if positive (beta face i n0) && positive (beta face i n1) && negb (Nat.eqb (edge_direction n0) (edge_direction n1)) then
        let corner := if Nat.eqb (edge_direction n0) 0 then (fst (neighbor i n0), snd (neighbor i n1))
                      else (fst (neighbor i n1), snd (neighbor i n0)) in
        ComputeGradientFrom geom u dx i [neighbor i n0; neighbor i n1; corner]
      else None
    else if positive (beta face i n3) then
      if positive (beta face i n0) && positive (beta face i n2) && positive (beta face i n1) then
        ComputeGradientFrom geom u dx i [neighbor i n0; neighbor i n1; neighbor i n2; neighbor i n3]
      else None
    else
      if positive (beta face i n0) && positive (beta face i n1) then
        ComputeGradientFrom geom u dx i [neighbor i n0; neighbor i n1; neighbor i n2]
      else None.

(** LimitGradients, MdGradients.hpp:237-247, for one cell with the linear optimisation limiter; visits to other cells do
    not change its gradient.  [w] is the field with which the gradient is compared: the component of [states] (complete
    states) with the same number as the component of the gradient, MdGradients.hpp:181-189. *)
Definition LimitCell (geom : geometry) (w : index -> R) (dx : vec) (i : index) (g : vec) : option vec :=
  if positive (volume_fraction geom i) then
    match LimitGradientsAtIndex (fun _ => g) w geom i dx with Some grad => Some (grad i) | None => None end
  else Some g.

(** ComputeGradients, MdGradients.hpp:62-192, for one cell and one component *)
Definition ComputeGradients (slope : R -> R -> R -> R -> R) (face : nat -> index -> R) (geom : geometry) (u w : index -> R)
                            (dx : vec) (i : index) : option vec :=
  match CellGradient slope face geom u dx i with Some g => LimitCell geom w dx i g | None => None end.

(** ConservativeGradient::ComputeGradient for one component, Gradient.hpp:239-249, with a function of the two slopes *)
Definition SlopeOfDifferences (f : R -> R -> R) (uL uM uR h : R) : R := f ((uM - uL) / h) ((uR - uM) / h).
