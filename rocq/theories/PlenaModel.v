(** src/equations/perfect_gas_mix/PlenaControl.cpp and include/fub/equations/perfect_gas_mix/PlenaControl.hpp.
    Doubles are real numbers; where an operation leaves the reals the model says so instead of inventing a number. *)
From Coq Require Import List Reals Bool.
Import ListNotations.
Local Open Scope R_scope.

(** PerfectGasConstants: the two constants used *)
Record gas := mkGas { gmoog : R; cp : R }.
(** ControlOptions, PlenaControl.hpp:122-177 (fields read by the control) *)
Record options := mkOpt
  { eff_turbine : R; area_inlet : R; area_outlet : R; vol_compressor : R; eff_compressor : R;
    rpmmin : R; rpmmax : R; pratiomin : R; pratiomax : R; c_0 : R; inertial : R; o_mu : R; target : R; tol_SEC : R; o_Q : R }.
(** PlenaControl.cpp:206-208, PlenaControl.hpp:148-155 *)
Definition rpmmean (o : options) : R := 1 / 2 * (rpmmax o + rpmmin o).
Definition pratiomean (o : options) : R := 1 / 2 * (pratiomax o + pratiomin o).
Definition pratiovar (o : options) : R := pratiomax o - pratiomin o.

(** PlenumState, PlenaControl.hpp:113-120 *)
Record plenum := mkPlenum { p_pressure : R; p_temp : R; p_power : R; p_in : R; p_out : R; p_SEC : bool }.
(** ControlState, PlenaControl.hpp:179-187 *)
Record control := mkControl
  { rpm : R; compressor : plenum; turbine : plenum; power_out : R; fuel : R; fuel_rate : R; efficiency : R }.

(** Result of an update: a finite state; a rotation speed which is not a number; a power of a number which is not
    positive (which may be infinite or not a number, not modelled further). *)
Inductive result (A : Type) := Done (a : A) | SpeedNaN | BadPower.
Arguments Done {A} a. Arguments SpeedNaN {A}. Arguments BadPower {A}.
Definition bind {A B} (r : result A) (f : A -> result B) : result B :=
  match r with Done a => f a | SpeedNaN => SpeedNaN | BadPower => BadPower end.

(** std::pow for a positive base *)
Definition pow (x y : R) : result R := if Rlt_dec 0 x then Done (Rpower x y) else BadPower.

(** Lines 37-58 *)
Definition UpdateTurbinePlenum (s : control) (g : gas) (o : options) (mdot : R) (current : plenum) (flux_rho_last dt : R) : result control :=
  let pressure_half := 1 / 2 * (p_pressure (turbine s) + p_pressure current) in
  let T_half := 1 / 2 * (p_temp (turbine s) + p_temp current) in
  let dt_over_tau := dt * 1 in
  bind (pow pressure_half (- gmoog g)) (fun pw =>
    let t := mkPlenum (p_pressure current) (p_temp current) (mdot * cp g * eff_turbine o * T_half * (1 - pw))
               ((1 - dt_over_tau) * p_in (turbine s) + dt_over_tau * flux_rho_last * area_outlet o)
               ((1 - dt_over_tau) * p_out (turbine s) + dt_over_tau * mdot) (p_SEC (turbine s)) in
    Done (mkControl (rpm s) (compressor s) t (power_out s) (fuel s) (fuel_rate s) (efficiency s))).

(** Lines 63-69 *)
Definition CompressorPressureRatio (o : options) (n : R) : R :=
  pratiomean o + c_0 o * pratiovar o * atan (PI * (n / rpmmean o - 1)) / PI.

(** Lines 72-81 *)
Definition UpdateCompressorFromRPM (s : control) (g : gas) (o : options) : result control :=
  let new_pressure := CompressorPressureRatio o (rpm s) in
  let c := compressor s in
  bind (pow new_pressure (gmoog g)) (fun pw =>
    let c' := mkPlenum new_pressure (1 + (pw - 1) / eff_compressor o) (p_power c) (p_in c) (p_out c) (p_SEC c) in
    Done (mkControl (rpm s) c' (turbine s) (power_out s) (fuel s) (fuel_rate s) (efficiency s))).

(** Lines 89-132 *)
Definition UpdateCompressorPlenum (s : control) (g : gas) (o : options) (flux_rho flux_spec dt : R) : result control :=
  let temperature_old := p_temp (compressor s) in
  let rho_old := p_pressure (compressor s) / p_temp (compressor s) in
  bind (UpdateCompressorFromRPM s g o) (fun s =>
    let c := compressor s in
    let rho_new := p_pressure c / p_temp c in
    let mdot := flux_rho * area_inlet o + vol_compressor o / dt * (rho_new - rho_old) in
    let T_v_half := 1 / 2 * (temperature_old + p_temp c) in
    let increase := mdot * (T_v_half - 1) * cp g / eff_compressor o in
    let dt_over_tau := dt * 1 in
    let c' := mkPlenum (p_pressure c) (p_temp c) ((1 - dt_over_tau) * p_power c + dt_over_tau * increase)
                ((1 - dt_over_tau) * p_in c + dt_over_tau * mdot)
                ((1 - dt_over_tau) * p_out c + dt_over_tau * flux_rho * area_inlet o) (p_SEC c) in
    Done (mkControl (rpm s) c' (turbine s) (power_out s) (fuel s + flux_spec * area_inlet o * dt)
            ((1 - dt_over_tau) * fuel_rate s + dt_over_tau * flux_spec * area_inlet o) (efficiency s))).

(** std::clamp *)
Definition clamp (x lo hi : R) : R := if Rlt_dec x lo then lo else if Rlt_dec hi x then hi else x.

(** Lines 137-175; sqrt of a negative number is NaN and std::clamp keeps a NaN *)
Definition ChangeRPM (s : control) (o : options) (dt : R) : result control :=
  let pressure := p_pressure (compressor s) in
  let rel := (target o - pressure) / target o in
  let comp_rate := 15 / 1000 * (1 - exp (- o_mu o * rel)) in
  let Ieff := 2 * (PI * PI) * inertial o in
  let power_netto := p_power (turbine s) - p_power (compressor s) in
  let d_Erot_dt := if Rlt_dec pressure (target o) then comp_rate * power_netto else 0 in
  let Erot := Ieff * rpm s * rpm s + d_Erot_dt * dt in
  if Rlt_dec (Erot / Ieff) 0 then SpeedNaN else
  let power := power_netto - d_Erot_dt in
  let eps := / 67108864 in
  let SEC := if p_SEC (compressor s)
             then if Rlt_dec (9 / 10 * target o) pressure then true else false
             else if Rlt_dec rel (tol_SEC o) then true else false in
  let c := compressor s in
  Done (mkControl (clamp (sqrt (Erot / Ieff)) (rpmmin o) (rpmmax o))
          (mkPlenum (p_pressure c) (p_temp c) (p_power c) (p_in c) (p_out c) SEC)
          (turbine s) power (fuel s) (fuel_rate s) (Rmax 0 power / (o_Q o * fuel_rate s + eps))).

(** Lines 247-255: std::make_shared<ControlState>() sets all members to zero *)
Definition ControlInit (g : gas) (o : options) (initial_turbine : plenum) : result control :=
  UpdateCompressorFromRPM (mkControl (rpmmin o) (mkPlenum 0 0 0 0 0 false) initial_turbine 0 0 0 0) g o.

(** The arguments of one call *)
Record call := mkCall { c_mdot : R; c_turbine : plenum; c_rho : R; c_spec : R; c_last : R; c_dt : R }.

(** Lines 257-265 *)
Definition UpdatePlena (g : gas) (o : options) (s : control) (c : call) : result control :=
  bind (UpdateTurbinePlenum s g o (c_mdot c) (c_turbine c) (c_last c) (c_dt c)) (fun s =>
  bind (UpdateCompressorPlenum s g o (c_rho c) (c_spec c) (c_dt c)) (fun s => ChangeRPM s o (c_dt c))).

(** A history of calls *)
Fixpoint Updates (g : gas) (o : options) (s : control) (calls : list call) : result control :=
  match calls with
  | [] => Done s
  | c :: rest => bind (UpdatePlena g o s c) (fun s => Updates g o s rest)
  end.
