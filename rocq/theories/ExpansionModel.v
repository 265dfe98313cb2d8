(** Model of boundary and initial states that come from gas dynamics: shocks with a given Mach number, isentropic expansion to a given
    pressure and to a given Mach number.
    Sources: include/fub/initial_data/ShockMachnumber.hpp, include/fub/equations/PerfectGasMix.hpp, include/fub/equations/EulerEquation.hpp,
    include/fub/AMReX/cutcell/boundary_condition/IsentropicPressureExpansion.hpp, src/AMReX/boundary_condition/IsentropicPressureBoundary.cpp,
    src/AMReX/cutcell/boundary_condition/IsentropicPressureBoundary.cpp, include/fub/AMReX/cutcell/boundary_condition/MachnumberBoundary.hpp.
    Doubles are real numbers, std::pow is Rpower (its base is positive in all theorems), vectors of any dimension are lists. *)
From Coq Require Import List Reals Bool.
From Verif Require Import GasModel.
Import ListNotations.
Local Open Scope R_scope.

(** ** Shock *)

(** PerfectGas.cpp:211-214 [Machnumber]; PerfectGas.cpp [Velocity] is momentum / density *)
Definition velocity_of (q : Complete) : list R := map (fun m => m / density q) (momentum q).
(** .matrix().norm(), ShockMachnumber.hpp:62 *)
Definition norm (v : list R) : R := sqrt (squaredNorm v).
(** PerfectGas.cpp:211-214 *)
Definition Machnumber (q : Complete) : R := norm (velocity_of q) / speed_of_sound q.

(** ShockMachnumber.hpp:40-66 [ComputePreShockState] *)
Definition ComputePreShockState (eq : gas) (post : Complete) (M_S : R) (normal : list R) : Complete :=
  let g := gamma eq in
  let gp1 := g + 1 in
  let gm1 := g - 1 in
  let M_post := Machnumber post in
  let M2 := (M_post - M_S) * (M_post - M_S) in
  let rho_c := gp1 * M2 / (gm1 * M2 + 2) in
  let rho_post := density post in
  let rho_pre := rho_post * rho_c in
  let p_c := (2 * g * M2 - gm1) / gp1 in
  let p_post := pressure post in
  let p_pre := p_post * p_c in
  let t := rho_post / rho_pre in
  let a_post := speed_of_sound post in
  let u_S := M_S * a_post in
  let u_post := norm (velocity_of post) in
  let u_pre := u_S * (1 - t) + u_post * t in
  CompleteFromPrim eq (mkPrim rho_pre (vscale u_pre normal) p_pre).

(** ** Expansion to a pressure *)

(** Complete state of PerfectGasMix: PerfectGasMix.hpp (passive scalars are treated like the species) *)
Record mix := mkMix { x_density : R; x_momentum : list R; x_energy : R; x_species : list R; x_pressure : R; x_speed_of_sound : R }.

(** (x > 0.0) - (x < 0.0), PerfectGasMix.hpp:619; IsentropicPressureBoundary.cpp:61 [Sign] *)
Definition sgn (x : R) : R := if Rlt_dec 0 x then 1 else if Rlt_dec x 0 then -1 else 0.
(** (x >= 0) - (x < 0), EulerEquation.hpp:320, IsentropicPressureExpansion.hpp:80 *)
Definition sgn_ge (x : R) : R := if Rlt_dec x 0 then -1 else 1.

(** v[0] = x *)
Definition set_first (x : R) (v : list R) : list R := match v with [] => [] | _ :: r => x :: r end.
(** Array<double, N, 1>::Zero(), PerfectGasMix.hpp:618 *)
Definition zeros (v : list R) : list R := map (fun _ => 0) v.

Section Mix.
(** eq.gamma; the other constants are computed from it, PerfectGasMix.hpp:227-240 *)
Variable g : R.

(** PerfectGasMix.hpp:589-640 [SetIsentropicPressure]; Temperature is PerfectGasMix.cpp:201-203 *)
Definition SetIsentropicPressure (q0 : mix) (p_new : R) : mix :=
  let rho_old := x_density q0 in
  let p_old := x_pressure q0 in
  let T_old := x_pressure q0 / x_density q0 in
  let u_old := map (fun m => m / x_density q0) (x_momentum q0) in
  let c := x_speed_of_sound q0 in
  let c2 := c * c in
  let Ma2 := squaredNorm u_old / c2 in
  let alpha := 1 + 1 / 2 * Ma2 * (g - 1) in
  let rho_0 := rho_old * Rpower alpha (1 / (g - 1)) in
  let p_0 := p_old * Rpower alpha (g * (1 / (g - 1))) in
  let T_0 := T_old * alpha in
  let rho_new := rho_0 * Rpower (p_new / p_0) (1 / g) in
  let T_new := p_new / rho_new in
  let u2_new := 2 * (g * (1 / (g - 1))) * (T_0 - T_new) in
  let u_new := set_first (sgn u2_new * sqrt (Rabs u2_new)) (zeros u_old) in
  let rhou_new := vscale rho_new u_new in
  let rhoE_new := p_new * (1 / (g - 1)) + KineticEnergy rho_new rhou_new in
  mkMix rho_new rhou_new rhoE_new (x_species q0) p_new (sqrt (g * p_new / rho_new)).

(** EulerEquation.hpp:307-323 [IsentropicExpansionWithoutDissipation] for equations without an own version *)
Definition IsentropicExpansion (src : mix) (pressure_dest efficiency : R) : mix :=
  let old_velocity := map (fun m => m / x_density src) (x_momentum src) in
  let rhoE_kin := KineticEnergy (x_density src) (x_momentum src) in
  let dest := mkMix (x_density src) (zeros (x_momentum src)) (x_energy src - rhoE_kin) (x_species src) (x_pressure src) (x_speed_of_sound src) in
  let h_before := (x_energy dest + x_pressure dest) / x_density dest in
  let dest := SetIsentropicPressure dest pressure_dest in
  let h_after := (x_energy dest + x_pressure dest) / x_density dest in
  let h_diff := h_before - h_after in
  let e_kin_new := 2 * efficiency * Rabs h_diff + squaredNorm old_velocity in
  let sign := sgn_ge h_diff in
  let momentum := set_first (x_density dest * (sign * sqrt e_kin_new)) (x_momentum dest) in
  mkMix (x_density dest) momentum (x_energy dest + KineticEnergy (x_density dest) momentum) (x_species dest) (x_pressure dest) (x_speed_of_sound dest).

(** PerfectGasMix.hpp:477-487 [SetVelocity] *)
Definition SetVelocity (q : mix) (v : list R) : mix :=
  let rhoE_kin_old := KineticEnergy (x_density q) (x_momentum q) in
  let momentum := vscale (x_density q) v in
  let rhoE_kin_new := KineticEnergy (x_density q) momentum in
  mkMix (x_density q) momentum (x_energy q + (rhoE_kin_new - rhoE_kin_old)) (x_species q) (x_pressure q) (x_speed_of_sound q).

(** PerfectGasMix.hpp:548-553 [TotalEnthalpy] *)
Definition TotalEnthalpy (q : mix) : R := (x_energy q + x_pressure q) / x_density q.

(** cutcell/boundary_condition/IsentropicPressureExpansion.hpp:69-87 [ExpandState] *)
Definition ExpandState (src : mix) (pressure_dest efficiency : R) : mix :=
  let old_velocity := map (fun m => m / x_density src) (x_momentum src) in
  let dest := SetVelocity src (zeros old_velocity) in
  let h_before := TotalEnthalpy dest in
  let dest := SetIsentropicPressure dest pressure_dest in
  let h_after := TotalEnthalpy dest in
  let h_diff := h_before - h_after in
  let u0 := nth 0 old_velocity 0 in
  let e_kin := efficiency * h_diff * 2 + u0 * u0 in
  let u_border0 := sgn_ge e_kin * sqrt (Rabs e_kin) in
  SetVelocity dest (set_first u_border0 old_velocity).
End Mix.

(** src/AMReX/boundary_condition/IsentropicPressureBoundary.cpp:70-88 [u_border]: the velocity of the boundary state of a mixture for the
    velocity inside and the specific enthalpies (of the gas at rest) before and after the isentropic change of the pressure, which is
    computed by the reactor *)
Definition border_velocity (efficiency old_velocity h_before h_after : R) : R :=
  let enthalpyDifference := h_before - h_after in
  if Req_EM_T (sgn old_velocity) (sgn enthalpyDifference) then
    sgn enthalpyDifference * sqrt (efficiency * Rabs enthalpyDifference * 2 + old_velocity * old_velocity)
  else
    let inner := efficiency * Rabs enthalpyDifference * 2 - old_velocity * old_velocity in
    if Rlt_dec 0 inner then sgn enthalpyDifference * sqrt (Rabs inner) else sgn inner * sqrt (Rabs inner).

(** src/AMReX/cutcell/boundary_condition/IsentropicPressureBoundary.cpp:167-195 [perfect_gas::IsentropicExpansionWithoutDissipation_];
    the division by zero for a gas at rest gives NaN in the code *)
Definition IsentropicExpansionPerfectGas (eq : gas) (state : Complete) (outer_pressure efficiency : R) : Complete :=
  let R0 := Rspec eq in
  let temperature_old := pressure state / density state / R0 in
  let pressure_new_over_old := outer_pressure / pressure state in
  let exponent := (gamma eq - 1) / gamma eq in
  let temperature_new := Rpower pressure_new_over_old exponent * temperature_old in
  let density_new := outer_pressure / temperature_new / R0 in
  let h_old := pressure state * (1 + gamma_minus_1_inv eq) / density state in
  let h_new := outer_pressure * (1 + gamma_minus_1_inv eq) / density_new in
  let enthalpyDifference := h_old - h_new in
  let u_old := velocity_of state in
  let u_old_norm := squaredNorm u_old in
  let u_border := sgn enthalpyDifference * sqrt (efficiency * Rabs enthalpyDifference * 2 + u_old_norm) in
  let u_new := vscale (u_border / u_old_norm) u_old in
  CompleteFromPrim eq (mkPrim density_new u_new outer_pressure).

(** ** Expansion to a Mach number *)

(** v[d] = x *)
Fixpoint set_nth (d : nat) (x : R) (v : list R) : list R :=
  match v, d with [], _ => [] | _ :: r, O => x :: r | y :: r, S d' => y :: set_nth d' x r end.

(** MachnumberBoundary.hpp:123-157 [ExpandState], for a perfect gas *)
Definition MachnumberExpand (eq : gas) (required_mach_number : R) (dir : nat) (source : Complete) : Complete :=
  let prim := PrimFromComplete source in
  let rho := density source in
  let p := pressure source in
  let g := gamma eq in
  let c := speed_of_sound source in
  let c2 := c * c in
  let u := nth dir (p_velocity prim) 0 in
  let u2 := u * u in
  let Ma2 := u2 / c2 in
  let gammaMinus := g - 1 in
  let gammaPlus := g + 1 in
  let p_0 := p * Rpower (1 + 1 / 2 * Ma2 * gammaMinus) (g / gammaMinus) in
  let rho_0 := rho * Rpower (1 + 1 / 2 * Ma2 * gammaMinus) (1 / gammaMinus) in
  let Ma_r := required_mach_number in
  let Ma2_r := Ma_r * Ma_r in
  let laval2_n := Ma2_r * gammaPlus / (Ma2_r * gammaMinus + 2) in
  let p_n := p_0 * Rpower (1 - gammaMinus / gammaPlus * laval2_n) (g / gammaMinus) in
  let rho_n := rho_0 * Rpower (1 - gammaMinus / gammaPlus * laval2_n) (1 / gammaPlus) in
  let c2_critical := (c2 + 1 / 2 * gammaMinus * u2) * 2 / gammaPlus in
  let u2_n := laval2_n * c2_critical in
  CompleteFromPrim eq (mkPrim rho_n (set_nth dir (sqrt u2_n) (p_velocity prim)) p_n).
