(** Model of the mass flow boundary condition and of the signal speeds of the ideal gas mixture.

    Sources (paths relative to /repo):
    - src/AMReX/boundary_condition/MassflowBoundary.cpp
    - src/equations/ideal_gas_mix/EinfeldtSignalVelocities.hpp

    doubles are real numbers; a state is reduced to the density, the momentum in the direction of the
    boundary and the speed of sound. *)
From Coq Require Import Reals.
Local Open Scope R_scope.

(** The members of Complete<IdealGasMix<Rank>> used by MassflowBoundary.cpp:77-131 and by
    EinfeldtSignalVelocities.hpp:25-52 *)
Record mstate := mkM { m_density : R; m_momentum : R; m_speed_of_sound : R }.

(** MassflowBoundary.cpp:84-124, the lambda [uL]: the velocity of the boundary state in units of the speed
    of sound; [None] is the NaN of std::sqrt of a negative number.  [u] is momentum / rho / a. *)
Definition BoundaryMach (side0 : bool) (m u : R) : option R :=
  if side0 then
    if Req_EM_T m u then Some u
    else if Rlt_dec m u then
      (if Rle_dec 1 m then Some m
       else if Rlt_dec (-1) m then Some ((2 * m + u * (m - 1)) / (m + 1))
       else Some (-1))
    else
      (if Rle_dec (2 - m) u then Some m
       else let radicand := 4 * m + (u - 1) * (u - 1) in
            if Rlt_dec radicand 0 then None else Some (sqrt radicand - 1))
  else
    if Req_EM_T m u then Some u
    else if Rlt_dec u m then
      (if Rle_dec 1 m then Some 1
       else if Rlt_dec (-1) m then Some ((2 * m - u * (m + 1)) / (1 - m))
       else Some m)
    else
      (if Rle_dec m (- (2 - u)) then Some m
       else let radicand := (u + 1) * (u + 1) - 4 * m in
            if Rlt_dec radicand 0 then None else Some (1 - sqrt radicand)).

(** MassflowBoundary.cpp:77-131 [ComputeBoundaryState]: the density, temperature and species of the inner
    state are kept, hence also the speed of sound (CompleteFromReactor); the tangential velocity is 0 *)
Definition ComputeBoundaryState (required_massflow surface_area : R) (side0 : bool) (state : mstate) : option mstate :=
  let rho := m_density state in
  let a := m_speed_of_sound state in
  let m := required_massflow / surface_area / (rho * a) in
  match BoundaryMach side0 m (m_momentum state / rho / a) with
  | None => None
  | Some u => Some (mkM rho (rho * (u * a)) a)
  end.

(** src/equations/ideal_gas_mix/EinfeldtSignalVelocities.hpp:24-52 with [theta] = 1/2, and one lane of the
    array version 54-81 with [theta] = 1; the masked version 83-119 has 1/2 *)
Definition MixSignals (theta : R) (l r : mstate) : R * R :=
  let rhoL := m_density l in
  let rhoR := m_density r in
  let aL := m_speed_of_sound l in
  let aR := m_speed_of_sound r in
  let sqRhoL := sqrt rhoL in
  let sqRhoR := sqrt rhoR in
  let uL := m_momentum l / rhoL in
  let uR := m_momentum r / rhoR in
  let roeU := (sqRhoL * uL + sqRhoR * uR) / (sqRhoL + sqRhoR) in
  let roeA := sqrt ((sqRhoL * aL * aL + sqRhoR * aR * aR) / (sqRhoL + sqRhoR) +
                    / 2 * (sqRhoL * sqRhoR) / ((sqRhoL + sqRhoR) * (sqRhoL + sqRhoR)) * (uR - uL) * (uR - uL)) in
  (Rmin (uL - aL) (roeU - theta * roeA), Rmax (roeU + theta * roeA) (uR + aR)).

(** EinfeldtSignalVelocities.hpp:24-52, 54-81: the two versions *)
Definition MixSignals_scalar := MixSignals (1 / 2).
Definition MixSignals_lane := MixSignals 1.
