(** Model of the mass flow boundary for embedded geometries, src/AMReX/cutcell/boundary_condition/MassflowBoundary.cpp. Doubles are reals. Not modelled:
    log messages, which cells are filled (the second FillBoundary, lines 155-190), chemistry. *)
From Coq Require Import List Reals.
Import ListNotations.
Local Open Scope R_scope.

Definition sum (l : list R) : R := fold_right Rplus 0 l.
(** The cells of the box owned by one process: volume fraction and the components of the data (lines 50-57 and 75-88) *)
Definition cells := list (R * list R).
(** TotalVolume, lines 46-63: the sum of each process, then the sum over the processes (MPI_Allreduce) *)
Definition TotalVolume (processes : list cells) : R := sum (map (fun cs => fold_left (fun local_volume c => local_volume + fst c) cs 0) processes).
(** AverageState, lines 65-93, one component *)
Definition AverageState (processes : list cells) (comp : nat) : R :=
  let total_volume := TotalVolume processes in
  sum (map (fun cs => fold_left (fun buffer c => buffer + fst c / total_volume * nth comp (snd c) 0) cs 0) processes).

(** The members of the state used in lines 109-141; simplified to a gas with constant ratio of heat capacities, so that temperature, speed of sound and energy
    are functions of density and pressure *)
Record gas := { density : R; pressure : R; velocity : list R }.
(** ComputeSpeedOfSound of such a gas: gamma R T with R T = p / rho (src/equations/IdealGasMix.cpp:161) *)
Definition speed_of_sound (gamma : R) (s : gas) : R := sqrt (gamma * pressure s / density s).
(** FlameMasterReactor::SetPressureIsentropic, src/equations/ideal_gas_mix/FlameMasterReactor.cpp:944-963: simplified to the exact solution of its
    differential equation for constant gamma, and without the tolerance 1e-5 *)
Definition isentropic_density (gamma rho p p_new : R) : R := rho * Rpower (p_new / p) (1 / gamma).
(** Zero() with velocity[dir] = u_n, lines 139-141 *)
Fixpoint only_component (dim dir : nat) (u : R) : list R :=
  match dim with O => [] | S dim => (match dir with O => u | _ => 0 end) :: match dir with O => repeat 0 dim | S dir => only_component dim dir u end end.

(** FillBoundary, lines 108-143: the state of the ghost cells; None if std::pow is called with a base that is not positive (NaN or infinity) *)
Definition OuterState (gamma required_massflow surface_area : R) (dim dir : nat) (state : gas) : option gas :=
  let rho := density state in
  let u := nth dir (velocity state) 0 in
  let p := pressure state in
  let c := speed_of_sound gamma state in
  let gammaMinus := gamma - 1 in
  let gammaPlus := gamma + 1 in
  let rGammaPlus := 1 / gammaPlus in
  let c_critical := sqrt (c * c + 1 / 2 * gammaMinus * u * u) * sqrt (2 * rGammaPlus) in
  let u_n := required_massflow / rho / surface_area in
  let lambda := u / c_critical in
  let lambda_n := u_n / c_critical in
  let gammaQuot := gammaMinus * rGammaPlus in
  let base_n := 1 - gammaQuot * lambda_n * lambda_n in
  let base := 1 - gammaQuot * lambda * lambda in
  if Rlt_dec 0 base_n then
    if Rlt_dec 0 base then
      let p0_n := p * Rpower base_n (- gamma / gammaMinus) in
      let p_n := p0_n * Rpower base (gamma / gammaMinus) in
      Some {| density := isentropic_density gamma rho p p_n; pressure := p_n; velocity := only_component dim dir u_n |}
    else None
  else None.
