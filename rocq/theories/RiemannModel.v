(** Model of the exact Riemann solver of the perfect gas equations.
    Sources: src/equations/perfect_gas/ExactRiemannSolver.hpp, include/fub/NewtonIteration.hpp,
    include/fub/flux_method/GodunovMethod.hpp.
    States are those of [GasModel] (any number of space dimensions, doubles are real numbers). *)
From Coq Require Import List Reals ZArith Bool.
From Verif Require Import GasModel NewtonModel.
Import ListNotations.
Local Open Scope R_scope.

(** ** Doubles with infinities and NaN, as far as they occur in ExactRiemannSolver.hpp:43-89 *)

(** std::sqrt, ExactRiemannSolver.hpp:49, 56, 69, 76 *)
Definition dsqrt (x : R) : dbl := if Rlt_dec x 0 then NaN else Fin (sqrt x).

(** std::pow of a finite base and exponent, ExactRiemannSolver.hpp:51, 58, 71, 78.  A negative base gives NaN
    (integer exponents are not treated separately, the exponents are (g-1)/(2g) and -(g+1)/(2g)). *)
Definition dpow (x y : R) : dbl :=
  if Rlt_dec 0 x then Fin (Rpower x y)
  else if Rlt_dec x 0 then NaN
  else if Rlt_dec 0 y then Fin 0 else if Rlt_dec y 0 then PInf else Fin 1.

(** multiplication by a finite number, ExactRiemannSolver.hpp:49-58 *)
Definition dscale (k : R) (v : dbl) : dbl :=
  match v with
  | Fin x => Fin (k * x)
  | NaN => NaN
  | PInf => if Rlt_dec 0 k then PInf else if Rlt_dec k 0 then NInf else NaN
  | NInf => if Rlt_dec 0 k then NInf else if Rlt_dec k 0 then PInf else NaN
  end.

(** sum of two doubles, ExactRiemannSolver.hpp:88, 89 *)
Definition dadd (v w : dbl) : dbl :=
  match v, w with
  | Fin x, Fin y => Fin (x + y)
  | NaN, _ | _, NaN => NaN
  | PInf, NInf | NInf, PInf => NaN
  | PInf, _ | _, PInf => PInf
  | NInf, _ | _, NInf => NInf
  end.

(** ** The middle state *)

(** ExactRiemannSolver.hpp:82-84, 108-110, 208-210: the lambda [velocity] *)
Definition velocity (q : Complete) (dir : nat) : R := nth dir (momentum q) 0 / density q.

(** ExactRiemannSolver.hpp:43-53 [f_left] and 65-73 [f_right]: the same function of the state of its side *)
Definition f_side (g : gas) (q : Complete) (p : R) : dbl :=
  let gp1 := gamma g + 1 in
  let gm1 := gamma g - 1 in
  let A := 2 / (gp1 * density q) in
  let B := gm1 / gp1 * pressure q in
  let exponent := 1 / 2 * gm1 / gamma g in
  if Rlt_dec (pressure q) p then dscale (p - pressure q) (dsqrt (A / (p + B)))
  else dscale (2 * speed_of_sound q / gm1) (dadd (dpow (p / pressure q) exponent) (Fin (- (1)))).

(** ExactRiemannSolver.hpp:54-60 [df_left] and 74-80 [df_right] *)
Definition df_side (g : gas) (q : Complete) (p : R) : dbl :=
  let gp1 := gamma g + 1 in
  let gm1 := gamma g - 1 in
  let A := 2 / (gp1 * density q) in
  let B := gm1 / gp1 * pressure q in
  let d_exponent := - (1 / 2) * gp1 / gamma g in
  if Rlt_dec (pressure q) p
  then dscale (1 - 1 / 2 * (p - pressure q) / (B + p)) (dsqrt (A / (B + p)))
  else dscale (/ (density q * speed_of_sound q)) (dpow (p / pressure q) d_exponent).

(** ExactRiemannSolver.hpp:88 [f] *)
Definition f_pressure (g : gas) (left right : Complete) (dir : nat) (h : R) : dbl :=
  dadd (dadd (f_side g right h) (f_side g left h)) (Fin (velocity right dir - velocity left dir)).

(** ExactRiemannSolver.hpp:89 [df] *)
Definition df_pressure (g : gas) (left right : Complete) (h : R) : dbl :=
  dadd (df_side g right h) (df_side g left h).

(** Result of [ComputeMiddleState]: the two numbers, the exception of the Newton iteration, or a middle state
    which is not finite *)
Inductive middle_result := Middle (pM uM : R) | Exception | NotFinite.

(** ExactRiemannSolver.hpp:92-94 *)
Definition middle_velocity (g : gas) (left right : Complete) (dir : nat) (pM : R) : dbl :=
  dadd (Fin (1 / 2 * (velocity left dir + velocity right dir)))
       (dscale (1 / 2) (dadd (f_side g right pM) (dscale (- (1)) (f_side g left pM)))).

(** ExactRiemannSolver.hpp:34-97 [ComputeMiddleState] with the default arguments of NewtonIteration.hpp:29-30 *)
Definition ComputeMiddleState (g : gas) (left right : Complete) (dir : nat) : middle_result :=
  match NewtonIteration (f_pressure g left right dir) (df_pressure g left right)
          (1 / 2 * (pressure left + pressure right)) (/ 10 ^ 7) 5000 with
  | Thrown _ => Exception
  | Returned pM =>
      match middle_velocity g left right dir pM with
      | Fin uM => Middle pM uM
      | _ => NotFinite
      end
  end.

(** ** Signal speeds *)

(** ExactRiemannSolver.hpp:125-134 and 136-145 without the sign: the distance of the signal to the velocity of the
    side, where [pM > p] means a shock *)
Definition signal_distance (g : gas) (q : Complete) (pM : R) : R :=
  let gp1 := gamma g + 1 in
  let gm1 := gamma g - 1 in
  if Rlt_dec (pressure q) pM
  then speed_of_sound q * sqrt ((gp1 * (pM / pressure q) + gm1) / (2 * gamma g))
  else speed_of_sound q.

(** the assertions ExactRiemannSolver.hpp:111-114, 117 and 229-232, 235 *)
Definition assertions (left right : Complete) (pM : R) : bool :=
  (if Rlt_dec 0 (density left) then true else false) &&
  (if Rlt_dec 0 (pressure left) then true else false) &&
  (if Rlt_dec 0 (density right) then true else false) &&
  (if Rlt_dec 0 (pressure right) then true else false) &&
  (if Rlt_dec 0 pM then true else false).

(** ExactRiemannSolver.hpp:105-148 [ComputeSignals] behind the computation of the middle state; [None] is a failed
    assertion *)
Definition SignalsFrom (g : gas) (left right : Complete) (dir : nat) (pM : R) : option (R * R) :=
  if assertions left right pM
  then Some (velocity left dir - signal_distance g left pM, velocity right dir + signal_distance g right pM)
  else None.

(** ExactRiemannSolver.hpp:105-148 [ComputeSignals]; [None] also for the exception and for a middle state which is not
    finite *)
Definition ComputeSignals (g : gas) (left right : Complete) (dir : nat) : option (R * R) :=
  match ComputeMiddleState g left right dir with
  | Middle pM _ => SignalsFrom g left right dir pM
  | _ => None
  end.

(** ** The solution at a point *)

(** state.momentum[d] = x, ExactRiemannSolver.hpp:218, 370 *)
Fixpoint set_at (d : nat) (x : R) (l : list R) : list R :=
  match l, d with
  | [], _ => []
  | _ :: r, O => x :: r
  | y :: r, S d' => y :: set_at d' x r
  end.

(** ExactRiemannSolver.hpp:211-220, 363-372 [set_momentum]: the transversal velocities are those of [side].  In one
    dimension the code assigns the only component. *)
Definition set_momentum (rho m : R) (side : Complete) (dir : nat) : list R :=
  set_at dir m (map (fun x => rho * (x / density side)) (momentum side)).

(** ExactRiemannSolver.hpp:221-226, 373-378: [set_momentum] followed by [from_prim] *)
Definition from_prim (g : gas) (rho u p : R) (side : Complete) (dir : nat) : Complete :=
  let m := set_momentum rho (rho * u) side dir in
  mkComplete rho m (p * gamma_minus_1_inv g + KineticEnergy rho m) p (sqrt (gamma g * p / rho)).

(** std::pow in ExactRiemannSolver.hpp:287-292, 342-347, 435-442, 492-499 (the exponents are positive): [None] is NaN *)
Definition opow (x y : R) : option R :=
  if Rlt_dec 0 x then Some (Rpower x y) else if Rlt_dec x 0 then None else Some 0.

(** The states of ExactRiemannSolver.hpp:256-260, 311-315 (behind a shock) *)
Definition shocked (g : gas) (side : Complete) (dir : nat) (pM uM : R) : Complete :=
  let g_ratio := (gamma g - 1) / (gamma g + 1) in
  let p_ratio := pM / pressure side in
  from_prim g (density side * (p_ratio + g_ratio) / (g_ratio * p_ratio + 1)) uM pM side dir.

(** ExactRiemannSolver.hpp:282-285, 337-340 (behind a rarefaction), p_ratio is positive *)
Definition rarefied (g : gas) (side : Complete) (dir : nat) (pM uM : R) : Complete :=
  from_prim g (density side * Rpower (pM / pressure side) (1 / gamma g)) uM pM side dir.

(** ExactRiemannSolver.hpp:392-446: left of the contact, for x/t = lambda *)
Definition LeftSide (g : gas) (left : Complete) (dir : nat) (pM uM lambda : R) : option Complete :=
  let gp1 := gamma g + 1 in
  let gm1 := gamma g - 1 in
  let uL := velocity left dir in
  let aL := speed_of_sound left in
  let pL := pressure left in
  let p_ratio := pM / pL in
  let g_ratio := gm1 / gp1 in
  if Rlt_dec pL pM then
    let shock_speed := uL - aL * sqrt ((gp1 * p_ratio + gm1) / (2 * gamma g)) in
    if Rlt_dec shock_speed lambda then Some (shocked g left dir pM uM) else Some left
  else
    let aM := aL * Rpower p_ratio (gm1 / (2 * gamma g)) in
    let shock_speed_TL := uM - aM in
    let shock_speed_HL := uL - aL in
    if Rlt_dec lambda shock_speed_HL then Some left
    else if Rlt_dec shock_speed_TL lambda then Some (rarefied g left dir pM uM)
    else
      match opow (2 / gp1 + g_ratio * (uL - lambda) / aL) (2 / gm1),
            opow (2 / gp1 + g_ratio * (uL - lambda) / aL) (2 * gamma g / gm1) with
      | Some r, Some s => Some (from_prim g (density left * r) (2 / gp1 * (aL + 1 / 2 * gm1 * uL + lambda)) (pL * s) left dir)
      | _, _ => None
      end.

(** ExactRiemannSolver.hpp:449-503: right of the contact *)
Definition RightSide (g : gas) (right : Complete) (dir : nat) (pM uM lambda : R) : option Complete :=
  let gp1 := gamma g + 1 in
  let gm1 := gamma g - 1 in
  let uR := velocity right dir in
  let aR := speed_of_sound right in
  let pR := pressure right in
  let p_ratio := pM / pR in
  let g_ratio := gm1 / gp1 in
  if Rlt_dec pR pM then
    let shock_speed := uR + aR * sqrt ((gp1 * p_ratio + gm1) / (2 * gamma g)) in
    if Rlt_dec lambda shock_speed then Some (shocked g right dir pM uM) else Some right
  else
    let aM := aR * Rpower p_ratio (gm1 / (2 * gamma g)) in
    let shock_speed_TR := uM + aM in
    let shock_speed_HR := uR + aR in
    if Rle_dec shock_speed_HR lambda then Some right
    else if Rle_dec lambda shock_speed_TR then Some (rarefied g right dir pM uM)
    else
      match opow (2 / gp1 - g_ratio * (uR - lambda) / aR) (2 / gm1),
            opow (2 / gp1 - g_ratio * (uR - lambda) / aR) (2 * gamma g / gm1) with
      | Some r, Some s => Some (from_prim g (density right * r) (2 / gp1 * (- aR + 1 / 2 * gm1 * uR + lambda)) (pR * s) right dir)
      | _, _ => None
      end.

(** ExactRiemannSolver.hpp:355-505 [SolveRiemannProblem(state, left, right, pM, uM, dt, dx, dir)] for dt > 0; [state] is
    the old content of the output argument, [None] a failed assertion or NaN *)
Definition SolveRiemannProblemAt (g : gas) (state left right : Complete) (pM uM dt dx : R) (dir : nat) : option Complete :=
  let lambda := dx / dt in
  if Rlt_dec 0 (density left) then
    if Rlt_dec 0 (density right) then
      if assertions left right pM then
        if Rle_dec lambda uM then LeftSide g left dir pM uM lambda else RightSide g right dir pM uM lambda
      else None
    else Some state
  else Some state.

(** ExactRiemannSolver.hpp:244-296: left of the contact in the version without dx and dt *)
Definition LeftSide0 (g : gas) (left : Complete) (dir : nat) (pM uM : R) : option Complete :=
  let gp1 := gamma g + 1 in
  let gm1 := gamma g - 1 in
  let uL := velocity left dir in
  let aL := speed_of_sound left in
  let pL := pressure left in
  let p_ratio := pM / pL in
  let g_ratio := gm1 / gp1 in
  if Rlt_dec pL pM then
    let shock_speed := uL - aL * sqrt ((gp1 * p_ratio + gm1) / (2 * gamma g)) in
    if Rlt_dec shock_speed 0 then Some (shocked g left dir pM uM) else Some left
  else
    let aM := aL * Rpower p_ratio (gm1 / (2 * gamma g)) in
    let shock_speed_TL := uM - aM in
    let shock_speed_HL := uL - aL in
    if Rlt_dec 0 shock_speed_HL then Some left
    else if Rlt_dec shock_speed_TL 0 then Some (rarefied g left dir pM uM)
    else
      match opow (2 / gp1 + g_ratio * uL / aL) (2 / gm1),
            opow (2 / gp1 + g_ratio * uL / aL) (2 * gamma g / gm1) with
      | Some r, Some s => Some (from_prim g (density left * r) (2 / gp1 * (aL + 1 / 2 * gm1 * uL)) (pL * s) left dir)
      | _, _ => None
      end.

(** ExactRiemannSolver.hpp:299-351: right of the contact in the version without dx and dt *)
Definition RightSide0 (g : gas) (right : Complete) (dir : nat) (pM uM : R) : option Complete :=
  let gp1 := gamma g + 1 in
  let gm1 := gamma g - 1 in
  let uR := velocity right dir in
  let aR := speed_of_sound right in
  let pR := pressure right in
  let p_ratio := pM / pR in
  let g_ratio := gm1 / gp1 in
  if Rlt_dec pR pM then
    let shock_speed := uR + aR * sqrt ((gp1 * p_ratio + gm1) / (2 * gamma g)) in
    if Rlt_dec 0 shock_speed then Some (shocked g right dir pM uM) else Some right
  else
    let aM := aR * Rpower p_ratio (gm1 / (2 * gamma g)) in
    let shock_speed_TR := uM + aM in
    let shock_speed_HR := uR + aR in
    if Rle_dec shock_speed_HR 0 then Some right
    else if Rle_dec 0 shock_speed_TR then Some (rarefied g right dir pM uM)
    else
      match opow (2 / gp1 - g_ratio * uR / aR) (2 / gm1),
            opow (2 / gp1 - g_ratio * uR / aR) (2 * gamma g / gm1) with
      | Some r, Some s => Some (from_prim g (density right * r) (2 / gp1 * (- aR + 1 / 2 * gm1 * uR)) (pR * s) right dir)
      | _, _ => None
      end.

(** ExactRiemannSolver.hpp:204-353 [SolveRiemannProblem(state, left, right, dir)] behind the computation of the middle
    state *)
Definition SolveFrom (g : gas) (left right : Complete) (dir : nat) (pM uM : R) : option Complete :=
  if assertions left right pM then
    if Rle_dec 0 uM then LeftSide0 g left dir pM uM else RightSide0 g right dir pM uM
  else None.

(** ExactRiemannSolver.hpp:204-353 [SolveRiemannProblem(state, left, right, dir)]; [None] is a failed assertion, NaN or
    the exception *)
Definition SolveRiemannProblem (g : gas) (state left right : Complete) (dir : nat) : option Complete :=
  if Rlt_dec 0 (density left) then
    if Rlt_dec 0 (density right) then
      match ComputeMiddleState g left right dir with
      | Middle pM uM => SolveFrom g left right dir pM uM
      | _ => None
      end
    else Some state
  else Some state.

(** GodunovMethod.hpp:129-140 [ComputeNumericFlux] for one face *)
Definition GodunovFlux (g : gas) (state left right : Complete) (dir : nat) : option Cons :=
  option_map (fun q => Flux q dir) (SolveRiemannProblem g state left right dir).
