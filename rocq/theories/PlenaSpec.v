(** Vocabulary for C42. *)
From Coq Require Import List Reals.
From Verif Require Import PlenaModel.
Import ListNotations.
Local Open Scope R_scope.

(** The characteristic curve of the compressor: pressure ratio for a rotation speed, centred at the mean speed. *)
Definition curve (o : options) (n : R) : R :=
  (pratiomax o + pratiomin o) / 2 +
  c_0 o * (pratiomax o - pratiomin o) * (atan (PI * (n / ((rpmmax o + rpmmin o) / 2) - 1)) / PI).

(** Fuel given to a history of calls. *)
Fixpoint fuel_given (o : options) (calls : list call) : R :=
  match calls with [] => 0 | c :: r => c_spec c * area_inlet o * c_dt c + fuel_given o r end.

(** Moment of inertia in the energy of the rotor, E = (2 pi^2 I) n^2. *)
Definition rotor (o : options) : R := 2 * (PI * PI) * inertial o.

(** The default options, PlenaControl.hpp:122-177. *)
Definition default_options : options :=
  mkOpt (9 / 10) 1 4 20 (9 / 10) (10000 / 60) (60000 / 60) 1 50 (22 / 17) (1 / 10) 10 (13 / 2) (1 / 10000) (15 / 2).

(** Power of the turbine: mass flow times heat capacity times efficiency times mean temperature times
    1 - p^(-(gamma-1)/gamma), p and T being means of old and new plenum. *)
Definition turbine_power (g : gas) (o : options) (s : control) (c : call) : R :=
  let T := (p_temp (turbine s) + p_temp (c_turbine c)) / 2 in
  let p := (p_pressure (turbine s) + p_pressure (c_turbine c)) / 2 in
  c_mdot c * cp g * eff_turbine o * T * (1 - Rpower p (- gmoog g)).

(** Temperature behind the compressor for a pressure ratio. *)
Definition compressor_temperature (g : gas) (o : options) (p : R) : R := 1 + (Rpower p (gmoog g) - 1) / eff_compressor o.

(** Power of the compressor: the previous one relaxed with time scale one towards mass flow times temperature rise
    times heat capacity over efficiency; the mass flow is what leaves plus what fills the plenum. *)
Definition compressor_power (g : gas) (o : options) (s : control) (c : call) : R :=
  let p := curve o (rpm s) in
  let T := compressor_temperature g o p in
  let filling := vol_compressor o / c_dt c * (p / T - p_pressure (compressor s) / p_temp (compressor s)) in
  let mdot := c_rho c * area_inlet o + filling in
  (1 - c_dt c) * p_power (compressor s) +
  c_dt c * (mdot * ((p_temp (compressor s) + T) / 2 - 1) * cp g / eff_compressor o).

(** Share of the net power which goes into the rotor: none at or above the target pressure. *)
Definition rotor_share (o : options) (p : R) : R :=
  if Rlt_dec p (target o) then 15 / 1000 * (1 - exp (- (o_mu o * (1 - p / target o)))) else 0.
