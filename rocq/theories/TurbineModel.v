(** Model of outflow boundary conditions: a given pressure outside, a turbine with a given mass flow, the plenum in front of a turbine.
    Sources (paths relative to /repo):
    - src/AMReX/cutcell/boundary_condition/PressureOutflowBoundary.cpp, PressureOutflowBoundary2.cpp
    - include/fub/AMReX/cutcell/boundary_condition/TurbineMassflowBoundary.hpp
    - src/AMReX/boundary_condition/TurbinePlenumBoundaryCondition.cpp
    - src/equations/PerfectGasMix.cpp
    Doubles are real numbers; std::pow of a positive base is Rpower. *)
From Coq Require Import List Reals ZArith Bool.
From Verif Require Import ArrayModel BoundaryModel GasModel NewtonModel RiemannModel.
Import ListNotations.
Local Open Scope R_scope.

(** ** The outer pressure *)

(** PerfectGas::Velocity, PerfectGas.cpp:193-198, PressureOutflowBoundary.cpp:90 *)
Definition velocities (q : Complete) : list R := map (fun m => m / density q) (momentum q).

(** PressureOutflowBoundary.cpp:86-96: the state of a ghost cell from the inner state *)
Definition OutflowState (eq : gas) (outer_pressure : R) (state : Complete) : Complete :=
  let pb := outer_pressure in
  let kappa := gamma eq in
  let c := speed_of_sound state in
  let c2 := c * c in
  let velocity := velocities state in
  let velocity_norm2 := squaredNorm velocity in
  if Rle_dec velocity_norm2 c2
  then let rho_new := kappa * pb / c2 in
       CompleteFromPrim eq (mkPrim rho_new velocity pb)
  else state.

(** The state with zeros, PressureOutflowBoundary.cpp:59: constructed by Complete{equation_}; [n] is the number of dimensions *)
Definition zero_state (n : nat) : Complete := mkComplete 0 (repeat 0 n) 0 0 0.

(** PressureOutflowBoundary.cpp:85-99: one ghost cell with the volume fractions of the ghost cell and of the inner cell *)
Definition OutflowCell (n : nat) (eq : gas) (outer_pressure alpha_dest alpha_src : R) (state : Complete) : Complete :=
  if Rlt_dec 0 alpha_dest then (if Rlt_dec 0 alpha_src then OutflowState eq outer_pressure state else zero_state n) else zero_state n.

(** PressureOutflowBoundary.cpp:71-101: the cells of one box; [alpha] are the volume fractions; smallEnd is the first, bigEnd the last cell
    of a box.  [cell] is the computation for one cell from the two volume fractions and the inner state *)
Definition FillOutflow {S : Type} (cell : R -> R -> S -> S) (alpha : index -> R) (dir : nat) (side : Z)
    (states box_to_fill : IndexBox) (d : option (@fab S)) : option (@fab S) :=
  let x0 := if Z.eqb side 0 then nthZ (upper box_to_fill) dir else (nthZ (lower box_to_fill) dir - 1)%Z in
  ForEachIndex box_to_fill
    (fun dest => let src := set_nth dest dir x0 in
                 transfer (cell (alpha dest) (alpha src)) states dest src) d.

(** PressureOutflowBoundary.cpp:44-104 [FillBoundary] on one patch *)
Definition OutflowPatch {S : Type} (cell : R -> R -> S -> S) (alpha : index -> R) (domain : IndexBox) (boundaries : list IndexBox)
    (dir : nat) (side ngrow : Z) (tile : IndexBox) (d : option (@fab S)) : option (@fab S) :=
  FillPatch (FillOutflow cell alpha dir side) domain boundaries dir side ngrow tile d.

(** ** The mixture of perfect gases *)

(** PerfectGasMix.hpp: the complete state *)
Record mixture := mkMixture
  { y_density : R; y_momentum : list R; y_energy : R; y_species : list R; y_scalars : list R; y_pressure : R; y_sound : R }.
(** PerfectGasMix.hpp: the primitive state with the mass fractions *)
Record mixture_prim := mkMixPrim { z_density : R; z_velocity : list R; z_pressure : R; z_species : list R; z_scalars : list R }.

(** PerfectGasMix.hpp:224-254: the constants of the equation *)
Record mix_gas := mkMixGas { mgamma : R; Msq : R }.

(** PerfectGasMix.hpp:232, 233 *)
Definition mix_inv (eq : mix_gas) : R := 1 / (mgamma eq - 1).

(** PerfectGasMix.cpp:88-108 [CompleteFromCons]; the arguments are the members of the conservative state *)
Definition MixFromCons (eq : mix_gas) (rho : R) (m : list R) (e : R) (species scalars : list R) : mixture :=
  let e_kin := Msq eq * KineticEnergy rho m in
  let e_int := e - e_kin in
  let p := e_int / mix_inv eq in
  mkMixture rho m e species scalars p (sqrt (mgamma eq * p / rho)).

(** PerfectGasMix.cpp:156-175 [CompleteFromPrim]; PerfectGasMix.hpp:650-656 calls it with the members of the primitive state *)
Definition MixFromPrim (eq : mix_gas) (w : mixture_prim) : mixture :=
  let m := vscale (z_density w) (z_velocity w) in
  let e_kin := Msq eq * KineticEnergy (z_density w) m in
  mkMixture (z_density w) m (e_kin + z_pressure w * mix_inv eq) (map (fun y => z_density w * y) (z_species w))
    (map (fun y => z_density w * y) (z_scalars w)) (z_pressure w)
    (sqrt (mgamma eq * z_pressure w / z_density w)).

(** PerfectGasMix.hpp:682-694 [PrimFromComplete] *)
Definition MixPrimFromComplete (q : mixture) : mixture_prim :=
  mkMixPrim (y_density q) (map (fun m => m / y_density q) (y_momentum q)) (y_pressure q) (map (fun s => s / y_density q) (y_species q))
    (map (fun s => s / y_density q) (y_scalars q)).

(** PressureOutflowBoundary2.cpp:75-88 *)
Definition OutflowMixture (eq : mix_gas) (outer_pressure : R) (state : mixture) : mixture :=
  let pb := outer_pressure in
  let c := y_sound state in
  let c2 := c * c in
  let velocity_norm2 := squaredNorm (map (fun m => m / y_density state) (y_momentum state)) in
  if Rle_dec velocity_norm2 c2
  then let prim := MixPrimFromComplete state in
       let rho_new := mgamma eq * pb / c2 in
       MixFromPrim eq (mkMixPrim rho_new (z_velocity prim) pb (z_species prim) (z_scalars prim))
  else state.

(** ** The plenum in front of the turbine *)

(** TurbinePlenumBoundaryCondition.cpp:47-49, 59, 76-137, one ghost cell; the tube has one dimension.  The members of [control_state_] are the pressure
    and the temperature of the plenum.  Then CompleteFromCons. *)
Definition FlushState (eq : mix_gas) (pflush Tflush : R) (state : mixture) : mixture :=
  let rhoflush := pflush / Tflush in
  let Msqinv := 1 / Msq eq in
  let gamma_minus_one_inv := mix_inv eq in
  let gamma_over_gamma_minus_one := mgamma eq * mix_inv eq in
  let rho := y_density state in
  let m := nth 0 (y_momentum state) 0 in
  let u := m / rho in
  let ek := 1 / 2 * rho * (u * u) in
  let p := y_pressure state in
  let T := p / rho in
  let pratio := pflush / p in
  let rhoratio := Rpower pratio (1 / mgamma eq) in
  let Tratio := pratio / rhoratio in
  if Rlt_dec p pflush then
    if Rle_dec u 0 then
      let uout := - sqrt (Rmax 0 (2 * gamma_over_gamma_minus_one * (Tratio - 1) * T)) * Msqinv in
      let rhoout := rhoflush / rhoratio in
      MixFromCons eq rhoout [uout * rhoout] (p * gamma_minus_one_inv + 1 / 2 * rhoout * (uout * uout))
        (map (fun s => s * rhoout / rho) (y_species state)) (y_scalars state)
    else
      let uout := sqrt (Rmax 0 (u * u - 2 * gamma_over_gamma_minus_one * (Tratio - 1) * T) * Msqinv) in
      let rhoout := rho * rhoratio in
      MixFromCons eq rhoout [uout * rhoout] (pflush * gamma_minus_one_inv + 1 / 2 * rhoout * (uout * uout))
        (map (fun s => s * rhoratio) (y_species state)) (y_scalars state)
  else
    if Rle_dec u 0 then
      MixFromCons eq (rho * rhoratio) [0] (pflush * gamma_minus_one_inv + (ek - 1 / 2 * rho * u * u) * rhoratio)
        (map (fun s => s * rhoratio) (y_species state)) (y_scalars state)
    else
      MixFromCons eq (rho * rhoratio) [m * rhoratio] (pflush * gamma_minus_one_inv + ek * rhoratio)
        (map (fun s => s * rhoratio) (y_species state)) (y_scalars state).

(** ** The mass flow through the turbine *)

(** TurbineMassflowBoundary.hpp:351-378 [ComputeRequiredMassflow] for a perfect gas; Temperature is PerfectGas.cpp:217-220 *)
Definition ComputeRequiredMassflow (eq : gas) (correlation : R) (dir : nat) (state : Complete) : R :=
  let p := pressure state in
  let c := speed_of_sound state in
  let T := Temperature eq state in
  let c2 := c * c in
  let u := velocity state dir in
  let u2 := u * u in
  let Ma2 := u2 / c2 in
  let gm1 := gamma eq - 1 in
  let oogm1 := 1 / gm1 in
  let alpha_0 := 1 + 1 / 2 * Ma2 * gm1 in
  let p_0 := p * Rpower alpha_0 (gamma eq * oogm1) in
  let T_0 := T * alpha_0 in
  correlation * p_0 / sqrt T_0.

(** A ghost state, an exception, or std::terminate because an exception leaves a function declared noexcept *)
Inductive outcome := Ghost (q : Complete) | Throws | Terminates.

(** TurbineMassflowBoundary.hpp:434-436, the lambda [f]: pow of a negative base is NaN *)
Definition jirasek_f (alpha beta gammaMinusInv v2 u_n : R) : dbl :=
  dadd (dscale u_n (dpow (1 - alpha * (u_n * u_n + v2)) gammaMinusInv)) (Fin (- beta)).
(** TurbineMassflowBoundary.hpp:437-442, the lambda [Df] *)
Definition jirasek_Df (alpha gammaMinusInv v2 u_n : R) : dbl :=
  let x := 1 - alpha * (u_n * u_n + v2) in
  dadd (dpow x gammaMinusInv) (dscale (- (2 * alpha * u_n * u_n * gammaMinusInv)) (dpow x (gammaMinusInv - 1))).

(** The default arguments of NewtonIteration, NewtonIteration.hpp:29-30 *)
Definition newton_tolerance : R := / 10000000.

(** TurbineMassflowBoundary.hpp:392-454 [RequireMassflow_Jirasek::operator()] for a perfect gas; the number of dimensions is the length of
    the momentum.  The function is noexcept. *)
Definition Jirasek (eq : gas) (source : Complete) (required_massflow relative_surface_area : R) (dir : nat) : outcome :=
  let prim := PrimFromComplete source in
  let rho := density source in
  let p := pressure source in
  let g := gamma eq in
  let c := speed_of_sound source in
  let c2 := c * c in
  let iy := Nat.modulo (dir + 1) (length (momentum source)) in
  let u := nth dir (p_velocity prim) 0 in
  let v := nth iy (p_velocity prim) 0 in
  let u2 := u * u in
  let v2 := v * v in
  let Ma2 := (u2 + v2) / c2 in
  let gammaMinus := g - 1 in
  let gammaMinusHalf := 1 / 2 * gammaMinus in
  let gammaMinusInv := 1 / gammaMinus in
  let gammaOverGammaMinus := g * gammaMinusInv in
  let gammaPlus := g + 1 in
  let alpha_0 := 1 + Ma2 * gammaMinusHalf in
  let p_0 := p * Rpower alpha_0 gammaOverGammaMinus in
  let rho_0 := rho * Rpower alpha_0 gammaMinusInv in
  let c_02 := c2 + gammaMinusHalf * (u2 + v2) in
  let alpha := gammaMinusHalf / c_02 in
  let beta := required_massflow / (relative_surface_area * rho_0) in
  match NewtonIteration (jirasek_f alpha beta gammaMinusInv v2) (jirasek_Df alpha gammaMinusInv v2) u newton_tolerance 5000 with
  | Thrown _ => Terminates
  | Returned required_u =>
    let critical_speed_of_sound2 := 2 * c_02 / (g + 1) in
    let required_laval2 := Rmin ((required_u * required_u + v2) / critical_speed_of_sound2) 1 in
    let alpha_n := 1 - gammaMinus / gammaPlus * required_laval2 in
    Ghost (CompleteFromPrim eq (mkPrim (rho_0 * Rpower alpha_n gammaMinusInv) (set_at dir required_u (p_velocity prim))
                                       (p_0 * Rpower alpha_n gammaOverGammaMinus)))
  end.

(** TurbineMassflowBoundary.hpp:476-499: UserData *)
Record user_data := mkData { rhoL : R; uL : R; pL : R; aL : R; dgamma : R; rhou_star : R }.

(** TurbineMassflowBoundary.hpp:502-507 [f_shock] *)
Definition f_shock (d : user_data) (p : R) : R :=
  let A := 2 / ((dgamma d + 1) * rhoL d) in
  let B := pL d * ((dgamma d - 1) / (dgamma d + 1)) in
  let ooQ := sqrt (A / (p + B)) in
  (p - pL d) * ooQ.
(** TurbineMassflowBoundary.hpp:510-512 [u_shock] *)
Definition u_shock (d : user_data) (p : R) : R := uL d - f_shock d p.
(** TurbineMassflowBoundary.hpp:515-523 [rho_shock] *)
Definition rho_shock (d : user_data) (p : R) : R :=
  let p_rel := p / pL d in
  let nom := (dgamma d - 1) / (dgamma d + 1) + p_rel in
  let denom := (dgamma d - 1) / (dgamma d + 1) * p_rel + 1 in
  rhoL d * (nom / denom).
(** TurbineMassflowBoundary.hpp:526-531 [f_rarefaction] *)
Definition f_rarefaction (d : user_data) (p : R) : R :=
  let pre_coeff := 2 * aL d * (1 / (dgamma d - 1)) in
  let p_rel := p / pL d in
  let exponent := (dgamma d - 1) / 2 / dgamma d in
  pre_coeff * (Rpower p_rel exponent - 1).
(** TurbineMassflowBoundary.hpp:534-536 [u_rarefaction] *)
Definition u_rarefaction (d : user_data) (p : R) : R := uL d - f_rarefaction d p.
(** TurbineMassflowBoundary.hpp:539-544 [rho_rarefaction] *)
Definition rho_rarefaction (d : user_data) (p : R) : R := rhoL d * Rpower (p / pL d) (1 / dgamma d).
(** TurbineMassflowBoundary.hpp:604-607: the velocity and the density for a pressure *)
Definition u_star (d : user_data) (p : R) : R := if Rlt_dec p (pL d) then u_rarefaction d p else u_shock d p.
Definition rho_star (d : user_data) (p : R) : R := if Rlt_dec p (pL d) then rho_rarefaction d p else rho_shock d p.
(** TurbineMassflowBoundary.hpp:546-564 [delta_rhou] *)
Definition delta_rhou (d : user_data) (p : R) : R :=
  if Rlt_dec p (pL d) then rho_rarefaction d p * u_rarefaction d p - rhou_star d else rho_shock d p * u_shock d p - rhou_star d.

(** TurbineMassflowBoundary.hpp:574-580: the loop for the lower bound; [counter] is the counter *)
Fixpoint find_lower (delta : R -> R) (counter : nat) (lower : R) : option R :=
  let lower := lower * (1 / 2) in
  match counter with
  | O => None
  | S counter => if Rlt_dec (delta lower) 0 then find_lower delta counter lower else Some lower
  end.
(** TurbineMassflowBoundary.hpp:582-588: the loop for the upper bound *)
Fixpoint find_upper (delta : R -> R) (counter : nat) (upper : R) : option R :=
  let upper := upper * 2 in
  match counter with
  | O => None
  | S counter => if Rlt_dec 0 (delta upper) then find_upper delta counter upper else Some upper
  end.

(** TurbineMassflowBoundary.hpp:566-591 [FindLowerAndUpperBounds] *)
Definition FindLowerAndUpperBounds (delta : R -> R) (p0 : R) : option (R * R) :=
  if Rlt_dec (delta p0) 0
  then match find_lower delta 12 p0 with None => None | Some lower => Some (lower, p0) end
  else match find_upper delta 12 p0 with None => None | Some upper => Some (p0, upper) end.

(** TurbineMassflowBoundary.hpp:456-618 [RequireMassflow_SolveExactRiemannProblem::operator()] for a perfect gas.  [bisect] is boost::math::tools::bisect with the
    tolerance and the number of iterations of lines 597-602. *)
Definition SolveExact (bisect : (R -> R) -> R -> R -> R * R) (eq : gas) (source : Complete)
    (required_massflow relative_surface_area : R) (dir : nat) : outcome :=
  let prim := PrimFromComplete source in
  let data := mkData (density source) (nth dir (p_velocity prim) 0) (pressure source) (speed_of_sound source) (gamma eq)
                     (required_massflow / relative_surface_area) in
  match FindLowerAndUpperBounds (delta_rhou data) (pL data) with
  | None => Throws
  | Some (lower, upper) =>
    let '(lo, hi) := bisect (delta_rhou data) lower upper in
    let p_star := lo + 1 / 2 * (hi - lo) in
    Ghost (CompleteFromPrim eq (mkPrim (rho_star data p_star) (set_at dir (u_star data p_star) (p_velocity prim)) p_star))
  end.

(** TurbineMassflowBoundary.hpp:380-386 [TransformState] with the mass flow of the state itself; [transform] is one of the two functions *)
Definition TransformState (transform : Complete -> R -> R -> nat -> outcome) (eq : gas) (correlation area : R) (dir : nat)
    (source : Complete) : outcome :=
  transform source (ComputeRequiredMassflow eq correlation dir source) area dir.

(** TurbineMassflowBoundary.hpp:182-201 [AverageRequiredMassflow]: the mean over the cells of the box, which are distributed over the processes of MPI *)
Definition AverageRequiredMassflow (eq : gas) (correlation : R) (dir : nat) (processes : list (list Complete)) (n : R) : R :=
  fold_right Rplus 0
    (map (fun cells => fold_left (fun average q => average + ComputeRequiredMassflow eq correlation dir q / n) cells 0) processes).
