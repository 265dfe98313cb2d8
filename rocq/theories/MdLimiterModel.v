(** The limiter for multidimensional gradients in cut cells.
    Source: src/cutcell_method/AnyMdLimiter.cpp.  Doubles are real numbers. *)
From Coq Require Import List Reals ZArith Bool.
Import ListNotations.
Local Open Scope R_scope.

(** Eigen::Vector2d and its operations (AnyMdLimiter.cpp:49-104) *)
Definition vec := (R * R)%type.
Definition vdot (a b : vec) : R := fst a * fst b + snd a * snd b.
Definition vadd (a b : vec) : vec := (fst a + fst b, snd a + snd b).
Definition vmul (k : R) (a : vec) : vec := (k * fst a, k * snd a).

(** A constraint a x >= b: a row of A with the entry of b.  The pair (A, b) is a list of constraints. *)
Definition constraint := (vec * R)%type.
Definition row (rows : list constraint) (i : nat) : vec := fst (nth i rows ((0, 0), 0)).
Definition bound (rows : list constraint) (i : nat) : R := snd (nth i rows ((0, 0), 0)).

(** .determinant() of the matrix with the rows a and b, AnyMdLimiter.cpp:45, 64 *)
Definition determinant (a b : vec) : R := fst a * snd b - snd a * fst b.

(** colPivHouseholderQr().solve for the matrix with the rows a and b, AnyMdLimiter.cpp:79.  The decomposition solves
    regular systems; in real numbers the solution is Cramer's rule. *)
Definition solve (a b rhs : vec) : vec :=
  ((fst rhs * snd b - snd a * snd rhs) / determinant a b, (fst a * snd rhs - fst rhs * fst b) / determinant a b).

(** A_k.transpose().colPivHouseholderQr().solve, AnyMdLimiter.cpp:65 *)
Definition solve_transposed (a b rhs : vec) : vec := solve (fst a, fst b) (snd a, snd b) rhs.

(** IsNonSingular, AnyMdLimiter.cpp:42-46 *)
Definition IsNonSingular (rows : list constraint) (i j : nat) : bool :=
  if Req_EM_T (determinant (row rows i) (row rows j)) 0 then false else true.

(** The body of the loop AnyMdLimiter.cpp:84-94: the state is alpha_k and min_i; None stands for the initial values
    (DBL_MAX is taken for infinity). *)
Definition ratio_step (rows : list constraint) (x p : vec) (qq : nat) (acc : option (R * nat)) (i : nat) : option (R * nat) :=
  let ap := vdot (row rows i) p in
  if Rlt_dec ap 0 then
    let y := (bound rows i - vdot (row rows i) x) / ap in
    if (match acc with None => true | Some (alpha, _) => if Rlt_dec y alpha then true else false end) && IsNonSingular rows qq i
    then Some (y, i) else acc
  else acc.

(** AnyMdLimiter.cpp:82-94 *)
Definition ratio_test (rows : list constraint) (x p : vec) (qq : nat) : option (R * nat) :=
  fold_left (ratio_step rows x p qq) (seq 0 (length rows)) None.

(** The result: a point, the exception of line 104, or a failed assertion (lines 64, 98, 99) *)
Inductive lp_result := Solved (x : vec) | ConvergenceError | AssertionFailed.

(** AnyMdLimiter.cpp:59-102; [todo] counts the remaining iterations, (w0, w1) is W_k *)
Fixpoint lp_loop (rows : list constraint) (c : vec) (todo : nat) (w0 w1 : nat) (x : vec) : lp_result :=
  match todo with
  | O => ConvergenceError
  | S k =>
      let a0 := row rows w0 in
      let a1 := row rows w1 in
      if Req_EM_T (determinant a0 a1) 0 then AssertionFailed
      else
        let lambda := solve_transposed a0 a1 c in
        if (if Rle_dec 0 (fst lambda) then true else false) && (if Rle_dec 0 (snd lambda) then true else false)
        then Solved x
        else
          if Rlt_dec (fst lambda) (snd lambda) then
            let p := solve a0 a1 (1, 0) in
            match ratio_test rows x p w1 with
            | None => AssertionFailed
            | Some (alpha, i) => if Nat.eqb i w0 then AssertionFailed else lp_loop rows c k i w1 (vadd x (vmul alpha p))
            end
          else
            let p := solve a0 a1 (0, 1) in
            match ratio_test rows x p w0 with
            | None => AssertionFailed
            | Some (alpha, i) => if Nat.eqb i w1 then AssertionFailed else lp_loop rows c k w0 i (vadd x (vmul alpha p))
            end
  end.

(** SolveLinearOptimizationProblem, AnyMdLimiter.cpp:49-106 *)
Definition SolveLinearOptimizationProblem (maxiter : nat) (x0 c : vec) (rows : list constraint) : lp_result :=
  lp_loop rows c maxiter 0 1 x0.

(** ** The limiter *)

Definition index := (Z * Z)%type.

(** The parts of CutCellData<2> (include/fub/CutCellData.hpp) which the limiter reads *)
Record geometry := mkGeometry
  { volume_fraction : index -> R; volume_centroid : index -> vec; boundary_centroid : index -> vec; boundary_normal : index -> vec }.

(** GetAbsoluteVolumeCentroid, CutCellData.hpp:149-160, with GetOffset, CutCellData.hpp:138-147 *)
Definition GetAbsoluteVolumeCentroid (geom : geometry) (i : index) (dx : vec) : vec :=
  ((IZR (fst i) + fst (volume_centroid geom i)) * fst dx + 1 / 2 * fst dx,
   (IZR (snd i) + snd (volume_centroid geom i)) * snd dx + 1 / 2 * snd dx).

(** IsConnected, AnyMdLimiter.cpp:121-140; the difference of the indices is an integer, its norm is compared exactly.
    The normal is that of GetBoundaryNormal, CutCellData.cpp:90-96. *)
Definition IsConnected (geom : geometry) (i j : index) : bool :=
  let dx := (fst j - fst i)%Z in
  let dy := (snd j - snd i)%Z in
  if negb ((fst i =? fst j)%Z && (snd i =? snd j)%Z) && (if Rlt_dec 0 (volume_fraction geom j) then true else false) then
    if negb (dx * dx + dy * dy =? 1)%Z then false
    else
      let xI := volume_centroid geom i in
      let xJ := vadd (IZR dx, IZR dy) (volume_centroid geom j) in
      let xB := boundary_centroid geom i in
      let n := vmul (- (1)) (boundary_normal geom i) in
      if Rle_dec (vdot n xB) (vdot n (vadd xJ (vmul (- (1)) xI))) then true else false
  else false.

(** Neighborhood(index, 1), PatchDataView.hpp:173-182, in the order of ForEachIndex: the first index runs fastest *)
Definition neighborhood (i : index) : list index :=
  flat_map (fun dy => map (fun dx => (fst i + dx, snd i + dy)%Z) [-1; 0; 1]%Z) [-1; 0; 1]%Z.

(** AnyMdLimiter.cpp:178-185 *)
Definition neighbors (geom : geometry) (i : index) : list index := filter (IsConnected geom i) (neighborhood i).

(** AnyMdLimiter.cpp:191-205: the limiters lie between 0 and 1 *)
Definition box_constraints : list constraint :=
  [((1, 0), 0); ((0, 1), 0); ((Ropp 1, 0), Ropp 1); ((0, Ropp 1), Ropp 1)].

(** AnyMdLimiter.cpp:208-227: the two constraints of one neighbour *)
Definition neighbor_constraints (geom : geometry) (u : index -> R) (D : vec) (dx : vec) (M i : index) : list constraint :=
  let xi := GetAbsoluteVolumeCentroid geom i dx in
  let xM := GetAbsoluteVolumeCentroid geom M dx in
  let a := ((fst xi - fst xM) * fst D, (snd xi - snd xM) * snd D) in
  let ma := (- fst a, - snd a) in
  if Rlt_dec (u i) (u M) then [(a, u i - u M); (ma, 0)]
  else [(ma, - (u i - u M)); (a, 0)].

(** AnyMdLimiter.cpp:162-238 [LinearOptimizationLimiter<2>::LimitGradientsAtIndex]: the new gradients; [None] if the
    optimisation throws or fails an assertion *)
Definition LimitGradientsAtIndex (grad : index -> vec) (u : index -> R) (geom : geometry) (M : index) (dx : vec) : option (index -> vec) :=
  let D := grad M in
  let cost := (- Rabs (fst D), - Rabs (snd D)) in
  let rows := box_constraints ++ flat_map (neighbor_constraints geom u D dx M) (neighbors geom M) in
  match SolveLinearOptimizationProblem 100 (0, 0) cost rows with
  | Solved limiter =>
      Some (fun i => if ((fst i =? fst M)%Z && (snd i =? snd M)%Z) then (fst limiter * fst D, snd limiter * snd D) else grad i)
  | _ => None
  end.
