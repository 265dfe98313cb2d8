(** Model of the exact Riemann solver of the shallow water equations.
    Sources: src/equations/ShallowWater.cpp, include/fub/equations/ShallowWater.hpp, include/fub/NewtonIteration.hpp,
    include/fub/flux_method/GodunovMethod.hpp.  Doubles are real numbers; NaN and infinities are explicit. *)
From Coq Require Import Reals ZArith Bool.
From Verif Require Import FluxModel NewtonModel.
Local Open Scope R_scope.

(** ShallowWater.hpp:37-57: height and momentum of a state *)
Record water := mkWater { height : R; momentum : R * R }.

(** momentum[d0] and momentum[d1] with d1 = (d0 + 1) % 2, ShallowWater.cpp:48, 97-98, 155-160; the direction is
    [false] for d0 = 0, [true] for d0 = 1 as in [momentum_of] *)
Definition along (d : bool) (q : water) : R := if d then snd (momentum q) else fst (momentum q).
Definition across (d : bool) (q : water) : R := if d then fst (momentum q) else snd (momentum q).
(** assignment of height, momentum[d0], momentum[d1], ShallowWater.cpp:94-98, 192-194, 219-221 *)
Definition make (d : bool) (h m t : R) : water := mkWater h (if d then (t, m) else (m, t)).

(** The state as a function of the component, see FluxModel *)
Definition components (q : water) (k : sw_component) : R :=
  match k with Height => height q | MomentumX => fst (momentum q) | MomentumY => snd (momentum q) end.

(** uL, uR of ShallowWater.cpp:49, 70, 156, 159 *)
Definition speed_of (d : bool) (q : water) : R := along d q / height q.

(** ** The middle state *)

(** std::sqrt, ShallowWater.cpp:52-89 *)
Definition dsqrt (x : R) : dbl := if Rlt_dec x 0 then NaN else Fin (sqrt x).

(** a + k * v for a double v and finite a and k <> 0 *)
Definition daffine (a k : R) (v : dbl) : dbl :=
  match v with
  | Fin x => Fin (a + k * x)
  | NaN => NaN
  | PInf => if Rlt_dec 0 k then PInf else NInf
  | NInf => if Rlt_dec 0 k then NInf else PInf
  end.

(** ShallowWater.cpp:53-59 [f_left] (s = 1) and 73-79 [f_right] (s = -1).  In the second branch h >= height q > 0. *)
Definition f_side (g : R) (d : bool) (q : water) (s : R) (h : R) : dbl :=
  let u := speed_of d q in
  if Rlt_dec h (height q)
  then daffine (u + s * (2 * sqrt (g * height q))) (- s * 2) (dsqrt (g * h))
  else daffine u (- s * (h - height q)) (dsqrt (1 / 2 * g * (1 / h + 1 / height q))).

(** quotient a / v of a finite number a > 0 by a square root *)
Definition dquot (a : R) (v : dbl) : dbl :=
  match v with
  | Fin x => if Req_EM_T x 0 then PInf else Fin (a / x)
  | NaN => NaN
  | PInf | NInf => Fin 0
  end.

(** ShallowWater.cpp:60-68 [df_left] (s = 1) and 80-88 [df_right] (s = -1); in the second branch the square root is
    positive *)
Definition df_side (g : R) (q : water) (s : R) (h : R) : dbl :=
  if Rlt_dec h (height q)
  then daffine 0 (- s) (dquot g (dsqrt (g * h)))
  else let r := sqrt (1 / 2 * g * (1 / h + 1 / height q)) in
       Fin (s * (1 / 4 * g * (h - height q) / (h * h * r) - r)).

(** difference of two doubles, ShallowWater.cpp:89, 90 *)
Definition dsub (v w : dbl) : dbl :=
  match v, w with
  | Fin x, Fin y => Fin (x - y)
  | NaN, _ | _, NaN => NaN
  | PInf, PInf | NInf, NInf => NaN
  | PInf, _ | _, NInf => PInf
  | NInf, _ | _, PInf => NInf
  end.

(** ShallowWater.cpp:89 [f] *)
Definition f_height (g : R) (d : bool) (left right : water) (h : R) : dbl :=
  dsub (f_side g d right (-1) h) (f_side g d left 1 h).
(** ShallowWater.cpp:90 [df] *)
Definition df_height (g : R) (left right : water) (h : R) : dbl :=
  dsub (df_side g right (-1) h) (df_side g left 1 h).

(** Result of ComputeMiddleState: height and velocity uM of line 94 (the code stores the momentum hM * uM, line 98, and
    divides it again by hM in line 163), the exception of the iteration, or a value which is not finite *)
Inductive middle_result := Middle (hM uM : R) | Exception | NotFinite.

(** ShallowWater.cpp:46-101 [ComputeMiddleState] *)
Definition ComputeMiddleState (g : R) (d : bool) (left right : water) : middle_result :=
  match NewtonIteration (f_height g d left right) (df_height g left right)
          (1 / 2 * (height left + height right)) (/ 10 ^ 7) 5000 with
  | Thrown _ => Exception
  | Returned hM => match f_side g d left 1 hM with Fin uM => Middle hM uM | _ => NotFinite end
  end.

(** ** Signals *)

(** ShallowWater.cpp:103-129 [ComputeSignals] behind the middle state; [None] for a failed assertion *)
Definition SignalsFrom (g : R) (d : bool) (left right : water) (hM uM : R) : option (R * R) :=
  if Rlt_dec 0 (height left) then
    if Rlt_dec 0 (height right) then
      Some (if Rle_dec hM (height left) then speed_of d left - sqrt (g * height left)
            else (hM * uM - along d left) / (hM - height left),
            if Rle_dec hM (height right) then speed_of d right + sqrt (g * height right)
            else (along d right - hM * uM) / (height right - hM))
    else None
  else None.

(** ShallowWater.cpp:103-129 [ComputeSignals] *)
Definition ComputeSignals (g : R) (d : bool) (left right : water) : option (R * R) :=
  match ComputeMiddleState g d left right with
  | Middle hM uM => SignalsFrom g d left right hM uM
  | _ => None
  end.

(** ** The solution at the interface *)

(** ShallowWater.cpp:172-197: left of the contact; [middle] has the transversal momentum hM * vL of line 173 *)
Definition LeftSide (g : R) (d : bool) (left : water) (hM uM : R) : water :=
  let uL := speed_of d left in
  let vL := across d left / height left in
  let hL := height left in
  let sqrt_g_hL := sqrt (g * hL) in
  let sqrt_g_hM := sqrt (g * hM) in
  let middle := make d hM (hM * uM) (hM * vL) in
  if Rlt_dec hL hM then
    let sL := (hM * uM - hL * uL) / (hM - hL) in
    if Rlt_dec 0 sL then left else middle
  else
    if Rlt_dec 0 (uL - sqrt_g_hL) then left
    else if Rlt_dec (uM - sqrt_g_hM) 0 then middle
    else
      let a := uL + 2 * sqrt_g_hL in
      let h_rarefaction := a * a / (9 * g) in
      let u_rarefaction := uL + 2 * (sqrt_g_hL - sqrt (g * h_rarefaction)) in
      make d h_rarefaction (h_rarefaction * u_rarefaction) (h_rarefaction * vL).

(** ShallowWater.cpp:199-225: right of the contact *)
Definition RightSide (g : R) (d : bool) (right : water) (hM uM : R) : water :=
  let uR := speed_of d right in
  let vR := across d right / height right in
  let hR := height right in
  let sqrt_g_hR := sqrt (g * hR) in
  let sqrt_g_hM := sqrt (g * hM) in
  let middle := make d hM (hM * uM) (hM * vR) in
  if Rlt_dec hR hM then
    let sR := (hR * uR - hM * uM) / (hR - hM) in
    if Rlt_dec sR 0 then right else middle
  else
    if Rlt_dec (uR + sqrt_g_hR) 0 then right
    else if Rlt_dec 0 (uM + sqrt_g_hM) then middle
    else
      let a := uR - 2 * sqrt_g_hR in
      let h_rarefaction := a * a / (9 * g) in
      let u_rarefaction := uR - 2 * (sqrt_g_hR - sqrt (g * h_rarefaction)) in
      make d h_rarefaction (h_rarefaction * u_rarefaction) (h_rarefaction * vR).

(** ShallowWater.cpp:148-227 [SolveRiemannProblem] behind the middle state; [None] for a failed assertion *)
Definition SolveFrom (g : R) (d : bool) (left right : water) (hM uM : R) : option water :=
  if Rlt_dec 0 (height left) then
    if Rlt_dec 0 (height right) then
      if Rlt_dec 0 hM then
        if Rle_dec 0 uM then Some (LeftSide g d left hM uM) else Some (RightSide g d right hM uM)
      else None
    else None
  else None.

(** ShallowWater.cpp:148-227 [SolveRiemannProblem]; the packs (229-245) call it for every lane *)
Definition SolveRiemannProblem (g : R) (d : bool) (left right : water) : option water :=
  match ComputeMiddleState g d left right with
  | Middle hM uM => SolveFrom g d left right hM uM
  | _ => None
  end.

(** GodunovMethod.hpp:129-140 [ComputeNumericFlux] for one face, with the flux function of FluxModel *)
Definition GodunovFlux (g : R) (d : bool) (left right : water) : option (sw_component -> R) :=
  option_map (fun q => ShallowWaterFlux g d (components q)) (SolveRiemannProblem g d left right).
