(** FluxMethod::ComputeStableDt over a patch, include/fub/flux_method/FluxMethod.hpp:295-382. *)
From Coq Require Import List ZArith Reals Bool.
From Verif Require Import ArrayModel FluxModel.
Import ListNotations.
Local Open Scope Z_scope.

(** std::min of two time steps (FluxMethod.hpp:311); NaN is not modelled. *)
Definition min_dt (a b : time_step) : time_step :=
  match a, b with
  | Infinite, _ => b
  | _, Infinite => a
  | Finite x, Finite y => Finite (Rmin x y)
  end.

Section StableDt.
(** [S] are complete states; [stable] is BaseMethod::ComputeStableDt of one stencil (FluxMethod.hpp:309-310). *)
Variables (S : Type) (stable : list S -> time_step).

(** The stencil whose first cell is [face]: FluxMethod.hpp:304-308.  Loading from the view is a function from
    cells to states here. *)
Definition stencil (states : index -> S) (dir size : nat) (face : index) : list S :=
  map (fun i => states (Shift face dir (Z.of_nat i))) (seq 0 size).

(** FluxMethod.hpp:295-314 (SequentialTag); [size] is GetStencilSize(), [box] is Box<0>(states). *)
Definition ComputeStableDt_seq (box : IndexBox) (states : index -> S) (dir size : nat) : time_step :=
  ForEachIndex (Shrink box dir (0, Z.of_nat size))
    (fun face m => min_dt (stable (stencil states dir size face)) m) Infinite.

(** The rows visited by ForEachRow (FluxMethod.hpp:354, StateRow.hpp:171-221, property C24) for the views
    Shrink(states, dir, {i, StencilSize - i - 1}) of FluxMethod.hpp:346-351: element k of the i-th view is
    cell i of the stencil starting at the k-th cell of the 0-th view, so a row is a list of first cells. *)
Definition stencil_rows (box : IndexBox) (dir size : nat) : list (list index) :=
  let b := Shrink box dir (0, Z.of_nat size - 1) in
  match lower b, upper b with
  | l :: ls, u :: us => map (fun outer => map (fun k => k :: outer) (zrange l u)) (loop_indices ls us)
  | _, _ => []
  end.

(** Lanes of Eigen arrays (FluxMethod.hpp:360, 376): lane by lane minimum. *)
Definition min_lanes (a b : list time_step) : list time_step := map2 min_dt a b.

(** FluxMethod.hpp:372-378, the remainder of a row of which the stencils [dts] (n < chunk) are left.  The loop
    of lines 373-375 writes mask_[i] = i for i < mask_.rows() = [mask_rows]; the other lanes of mask_ are
    uninitialised and compare with n as [garbage i] says.  The lanes beyond n of the stencil arrays are not
    part of the row; ComputeStableDt returns [stale i] there. *)
Definition tail_lanes (chunk mask_rows : nat) (garbage : nat -> bool) (stale : nat -> time_step)
    (acc dts : list time_step) : list time_step :=
  map (fun i =>
         let mask := if (i <? mask_rows)%nat then (i <? length dts)%nat else garbage i in
         if mask then min_dt (nth i acc Infinite) (if (i <? length dts)%nat then nth i dts Infinite else stale i)
         else nth i acc Infinite)
      (seq 0 chunk).

(** FluxMethod.hpp:354-379: one row given by the stable time steps of its stencils. *)
Fixpoint row_lanes (fuel chunk mask_rows : nat) (garbage : nat -> bool) (stale : nat -> time_step)
    (acc dts : list time_step) : list time_step :=
  match fuel with
  | O => acc
  | Datatypes.S fuel' =>
      if (chunk <=? length dts)%nat
      then row_lanes fuel' chunk mask_rows garbage stale (min_lanes acc (firstn chunk dts)) (skipn chunk dts)
      else tail_lanes chunk mask_rows garbage stale acc dts
  end.

(** FluxMethod.hpp:336-381 (SimdTag).  [garbage] and [stale] may differ from row to row.  Lanes of the array
    version of ComputeStableDt are taken to be those of the scalar version. *)
Definition ComputeStableDt_simd (chunk mask_rows : nat) (garbage : list index -> nat -> bool)
    (stale : list index -> nat -> time_step) (box : IndexBox) (states : index -> S) (dir size : nat) : time_step :=
  fold_left min_dt
    (fold_left (fun acc row => row_lanes (Datatypes.S (length row)) chunk mask_rows (garbage row) (stale row) acc
                                 (map (fun face => stable (stencil states dir size face)) row))
       (stencil_rows box dir size) (repeat Infinite chunk))
    Infinite.

End StableDt.

(** mask_.rows() of an Array1d, which has one row and kDefaultChunkSize columns
    (include/fub/ext/Eigen.hpp:29-44); used at FluxMethod.hpp:373. *)
Definition code_mask_rows : nat := 1.
