(** Model of the geometries.  Sources: src/geometry/Polygon.cpp, src/geometry/Union.cpp,
    src/geometry/Halfspace.cpp, include/fub/geometry/{Invert,RotateAroundPoint,RotateAxis}.hpp.
    [double] is modelled by [R]; infinities are explicit. *)
From Coq Require Import List ZArith Reals Bool.
Import ListNotations.
Local Open Scope R_scope.

(** ** Polygon *)

(** Polygon.cpp:27-30 one lane of [Point] *)
Definition point := (R * R)%type.

(** Polygon.cpp:32-34 [Dot_] *)
Definition Dot (p q : point) : R := fst p * fst q + snd p * snd q.

(** Polygon.cpp:36-39 [Distance_(p, q)] *)
Definition Distance2 (p q : point) : R :=
  let diff := (fst q - fst p, snd q - snd p) in sqrt (Dot diff diff).

(** Polygon.cpp:41-57 [Distance_(v, w, p)] in one lane.  For v = w the quotient is NaN in C++; it is not
    selected then. *)
Definition Distance3 (v w p : point) : R :=
  let w_minus_v := (fst w - fst v, snd w - snd v) in
  let length_squared := Dot w_minus_v w_minus_v in
  let p_minus_v := (fst p - fst v, snd p - snd v) in
  let t := Rmax (Rmin (Dot p_minus_v w_minus_v / length_squared) 1) 0 in
  let proj := ((1 - t) * fst v + t * fst w, (1 - t) * snd v + t * snd w) in
  if Rlt_dec 0 length_squared then Distance2 p proj else Distance2 p v.

(** Comparison of doubles as a boolean, Polygon.cpp:72-74 *)
Definition ltb (x y : R) : bool := if Rlt_dec x y then true else false.
(** Polygon.cpp:73 *)
Definition leb (x y : R) : bool := if Rle_dec x y then true else false.

(** Polygon.cpp:68-78 [CountCrossedLines_] in one lane.  For horizontal edges the quotient is NaN or infinite in
    C++; the range test is false for them. *)
Definition CountCrossedLines (v w p : point) : Z :=
  let t := (snd p - snd v) / (snd w - snd v) in
  let xIntercept := (1 - t) * fst v + t * fst w in
  if ((ltb (snd v) (snd p) && leb (snd p) (snd w)) || (ltb (snd w) (snd p) && leb (snd p) (snd v)))
     && ltb xIntercept (fst p)
  then 1%Z else 0%Z.

(** A double which is finite or plus infinity, Polygon.cpp:61,97 *)
Notation dist := (option R).

(** Polygon.cpp:109,126 [min] of two such numbers *)
Definition dmin (a b : dist) : dist :=
  match a, b with
  | Some x, Some y => Some (Rmin x y)
  | None, _ => b
  | _, None => a
  end.

(** Polygon.cpp:105-106, 120-123: elements [first], ..., [first + n - 1] of a vector; [None]: not all exist *)
Definition load (xs : list R) (first n : nat) : option (nat -> R) :=
  if (first + n <=? length xs)%nat then Some (fun i => nth (first + i) xs 0) else None.

(** Polygon.cpp:59-66 [DistanceN_], lane [i] of the first [n] *)
Definition DistanceN (v w p : point) (n i : nat) : dist :=
  if (i <? n)%nat then Some (Distance3 v w p) else None.

(** Polygon.cpp:80-87 [CountCrossedLinesN_] *)
Definition CountCrossedLinesN (v w p : point) (n i : nat) : Z :=
  if (i <? n)%nat then CountCrossedLines v w p else 0%Z.

(** Polygon.cpp:99,96: the lanes of [num_crossed_lines] and [min_distance] *)
Definition lanes := ((nat -> Z) * (nat -> dist))%type.

(** Polygon.cpp:103-126 the loop over chunks of [w] edges and the remainder; [None] is undefined behaviour: an
    element outside of a vector is read (or, for n = -1, a lane -1 is written).  [fuel] bounds the number of chunks. *)
Fixpoint chunks (fuel : nat) (w : nat) (xs ys : list R) (p : point) (first : nat) (st : lanes) : option lanes :=
  let count := (Z.of_nat (length xs) - Z.of_nat first)%Z in
  if (Z.of_nat w + 1 <? count)%Z then
    match fuel with
    | O => None
    | S fuel =>
        match load xs first w, load ys first w, load xs (first + 1) w, load ys (first + 1) w with
        | Some vx, Some vy, Some wx, Some wy =>
            chunks fuel w xs ys p (first + w)
              (fun i => (fst st i + CountCrossedLines (vx i, vy i) (wx i, wy i) p)%Z,
               fun i => dmin (snd st i) (Some (Distance3 (vx i, vy i) (wx i, wy i) p)))
        | _, _, _, _ => None
        end
    end
  else
    let n := (count - 1)%Z in
    if (n <? 0)%Z then None
    else
      let n := Z.to_nat n in
      match load xs first n, load ys first n, load xs (first + 1) n, load ys (first + 1) n with
      | Some vx, Some vy, Some wx, Some wy =>
          let v := fun i => if (i <? n)%nat then (vx i, vy i) else (0, 0) in
          let w := fun i => if (i <? n)%nat then (wx i, wy i) else (0, 0) in
          Some (fun i => (fst st i + CountCrossedLinesN (v i) (w i) p n i)%Z,
                fun i => dmin (snd st i) (DistanceN (v i) (w i) p n i))
      | _, _, _, _ => None
      end.

(** The returned double: finite or an infinity with its sign, Polygon.cpp:131 *)
Inductive signed := Finite (r : R) | Infinite (positive : bool).

(** Polygon.cpp:91-132 [Polygon::ComputeDistanceTo]; [w] is [kDefaultChunkSize] (ext/Eigen.hpp:36-40) *)
Definition ComputeDistanceTo (w : nat) (xs ys : list R) (p : point) : option signed :=
  match chunks (length xs) w xs ys p 0 (fun _ => 0%Z, fun _ => None) with
  | None => None
  | Some st =>
      let distance := fold_left dmin (map (snd st) (seq 0 w)) None in              (* 128 minCoeff *)
      let crossed_lines := fold_left Z.add (map (fst st) (seq 0 w)) 0%Z in          (* 129 sum *)
      let positive := negb (Z.rem crossed_lines 2 =? 0)%Z in                        (* 130 *)
      Some match distance with
           | Some d => Finite ((if positive then 1 else -1) * d)
           | None => Infinite positive
           end
  end.

(** ** Combinators *)

(** Union.cpp:43 [std::numeric_limits<double>::lowest()] *)
Definition lowest : R := - (2 ^ 1024 - 2 ^ 971).

(** Union.cpp:39-47 [PolymorphicUnion::ComputeDistanceTo] for finite member distances *)
Definition Union {X} (geoms : list (X -> R)) (x : X) : R :=
  fold_left (fun max geom => Rmax max (geom x)) geoms lowest.

(** Invert.hpp:39-65 [Invert::ComputeDistanceTo] for a base of the same dimension (43, 57); the versions
    which project to or embed from another dimension (44-47, 58-61) are not modelled *)
Definition Invert {X} (base : X -> R) (x : X) : R := - base x.

(** RotateAroundPoint.hpp:33-45: constructor and [ComputeDistanceTo] *)
Definition RotateAroundPoint (base : point -> R) (angle : R) (origin : point) (x : point) : R :=
  let cos_a := cos (- angle) in
  let sin_a := sin (- angle) in
  let d := (fst x - fst origin, snd x - snd origin) in
  base (cos_a * fst d + - sin_a * snd d + fst origin, sin_a * fst d + cos_a * snd d + snd origin).

(** RotateAxis.hpp:30-35 [RotateAxis::ComputeDistanceTo] *)
Definition RotateAxis (base : point -> R) (x : R * R * R) : R :=
  let '(x0, x1, x2) := x in base (x0, sqrt (x1 * x1 + x2 * x2)).

(** Eigen's dot product of three vectors, Halfspace.cpp:29 *)
Definition dot3 (a b : R * R * R) : R :=
  let '(a0, a1, a2) := a in let '(b0, b1, b2) := b in a0 * b0 + a1 * b1 + a2 * b2.
(** Eigen's [normalized()], Halfspace.cpp:26: the zero vector is returned unchanged *)
Definition normalized (a : R * R * R) : R * R * R :=
  let '(a0, a1, a2) := a in
  let z := dot3 a a in
  if Rlt_dec 0 z then (a0 / sqrt z, a1 / sqrt z, a2 / sqrt z) else a.

(** Halfspace.cpp:25-30 *)
Definition Halfspace (dir : R * R * R) (offset : R) (x : R * R * R) : R := dot3 x (normalized dir) - offset.
