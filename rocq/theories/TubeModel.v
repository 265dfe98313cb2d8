(** src/geometry/ExpandTube.cpp: a tube of constant radius around a line through given points. *)
From Coq Require Import List Reals Bool.
Import ListNotations.
Local Open Scope R_scope.

(** Eigen::Vector3d *)
Record vec := mkVec { vx : R; vy : R; vz : R }.
Definition vadd (a b : vec) : vec := mkVec (vx a + vx b) (vy a + vy b) (vz a + vz b).
Definition vsub (a b : vec) : vec := mkVec (vx a - vx b) (vy a - vy b) (vz a - vz b).
Definition vscale (k : R) (a : vec) : vec := mkVec (k * vx a) (k * vy a) (k * vz a).
Definition vdot (a b : vec) : R := vx a * vx b + vy a * vy b + vz a * vz b.
(** Eigen's normalized(): a vector of length zero is returned as it is; called in ExpandTube.cpp:33 and 49 *)
Definition normalized (a : vec) : vec := if Rlt_dec 0 (vdot a a) then vscale (/ sqrt (vdot a a)) a else a.

(** GetHeightsFromPoints_, lines 29-36 *)
Fixpoint GetHeightsFromPoints (points : list vec) : list vec :=
  match points with
  | p :: r => match r with q :: _ => normalized (vsub q p) :: GetHeightsFromPoints r | [] => [] end
  | [] => []
  end.

(** A column of the matrix of planes: two components of the normal and the offset, lines 43-45, 50-52 and 57-59 *)
Record plane := mkPlane { pn0 : R; pn1 : R; pd : R }.
Definition plane_of (n c : vec) : plane := mkPlane (vx n) (vy n) (vdot n c).
(** The loop of GetPlanes, lines 47-54; centers and heights begin with column 1 *)
Fixpoint inner_planes (norm0 : vec) (centers heights : list vec) : list plane :=
  match heights, centers with
  | norm1 :: hs, c :: cs => plane_of (normalized (vscale (1 / 2) (vadd norm0 norm1))) c :: inner_planes norm1 cs hs
  | _, _ => []
  end.
(** GetPlanes, lines 38-61. For a single point the only column is written twice. *)
Definition GetPlanes (centers heights : list vec) : list plane :=
  match centers with
  | [] => []
  | c0 :: [] => [plane_of (mkVec 0 (-1) 0) c0]
  | c0 :: cs => plane_of (mkVec 0 1 0) c0 :: inner_planes (mkVec 0 1 0) cs (tl heights) ++ [plane_of (mkVec 0 (-1) 0) (last centers c0)]
  end.

(** ComputeDistance_, lines 63-69 *)
Definition ComputeDistance (x origin h : vec) (radius : R) : R :=
  let length := vdot h (vsub x origin) in
  let projected := vadd origin (vscale length h) in
  sqrt (vdot (vsub x projected) (vsub x projected)) - radius.

(** The loop of operator(), lines 98-106 *)
Fixpoint distances (radius : R) (x : vec) (heights centers : list vec) (planes : list plane) : list R :=
  match heights, centers, planes with
  | h :: hs, c :: cs, lo :: ps =>
    match ps with
    | hi :: _ =>
      Rmax (Rmax (pd lo - (pn0 lo * vx x + pn1 lo * vy x)) ((pn0 hi * vx x + pn1 hi * vy x) - pd hi)) (ComputeDistance x c h radius)
        :: distances radius x hs cs ps
    | [] => []
    end
  | _, _, _ => []
  end.
(** The constructor and operator(), lines 86-108; None: the smallest element of an empty vector is dereferenced *)
Definition ExpandTube (points : list vec) (radius : R) (x : vec) : option R :=
  let heights := GetHeightsFromPoints points in
  match distances radius x heights points (GetPlanes points heights) with
  | [] => None
  | d :: r => Some (- fold_left (fun m y => if Rlt_dec y m then y else m) r d)
  end.

(** ReadPointsFromFile, lines 110-135. Characters are of any type with a test for the end of a line, and numbers gives the
    values that operator>> reads from the beginning of a line one after the other. *)
Section file.
Context {C : Type} (newline : C -> bool) (numbers : list C -> list R).
(** std::getline: None at the end of the stream; a last line without end is read unless it is empty *)
Fixpoint getline (s : list C) : option (list C * list C) :=
  match s with
  | [] => None
  | c :: r =>
    if newline c then Some ([], r)
    else match getline r with Some (l, r') => Some (c :: l, r') | None => Some ([c], []) end
  end.
(** std::count, lines 113-114 *)
Fixpoint count_newlines (s : list C) : nat := match s with [] => 0 | c :: r => (if newline c then 1 else 0) + count_newlines r end.
(** Loop, lines 119-132, with the columns that are finished; the first argument bounds the number of passes (each reads at
    least one character). A column of an incomplete line is overwritten by the next line. *)
Fixpoint read_loop (fuel : nat) (n_points : nat) (s : list C) (done : list vec) : list vec :=
  match fuel with
  | O => done
  | S k =>
    match getline s with
    | None => done
    | Some (l, s') =>
      if (length done <? n_points)%nat then
        match numbers l with
        | x :: y :: _ => read_loop k n_points s' (done ++ [mkVec x y 0])
        | _ => read_loop k n_points s' done
        end
      else done
    end
  end.
(** Lines 133-134: resize keeps the values only if the number of columns does not change; Lost n: n columns without values *)
Inductive matrix := Columns (l : list vec) | Lost (n : nat).
Definition ReadPointsFromFile (content : list C) : matrix :=
  let n_points := count_newlines content in
  let l := read_loop (S (length content)) n_points content [] in
  if (length l =? n_points)%nat then Columns l else Lost (length l).
End file.
