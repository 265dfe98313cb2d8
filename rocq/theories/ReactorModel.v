(** Model of the reactor: composition, thermodynamic data and chemistry of a mixture.
    Sources: src/equations/ideal_gas_mix/FlameMasterReactor.cpp, include/fub/equations/ideal_gas_mix/FlameMasterReactor.hpp,
    src/equations/ideal_gas_mix/KineticSourceTerm.cpp, src/equations/IdealGasMix.cpp:142-165.
    Doubles are real numbers.  Mechanisms with steady state species (nSpecies <> nSpeciesEffective) are left out. *)
From Coq Require Import String List Reals Bool.
From Verif Require Import EnergyModel.
Import ListNotations.
Local Open Scope R_scope.

(** A mechanism: names and molar masses of the species, the gas constant, the enthalpies and heat capacities at constant
    pressure (per mass) at a temperature and the production rates (per mole) for concentrations, temperature and pressure,
    FlameMasterReactor.hpp:51-79.  The functions are arbitrary. *)
Record mechanism := mkMechanism {
  names : list string;
  molarMasses : list R;
  gasConstant : R;
  ThermoData : R -> list R * list R;
  ProductionRates : list R -> R -> R -> list R
}.

(** FlameMasterReactor.hpp:81-132 [FlameMasterState], without scratch memory and entropies *)
Record reactor := mkReactor {
  massFractions : list R;
  moles : list R;
  temperature : R;
  density : R;
  enthalpies : list R;
  heat_capacities : list R;
  thermoTemp : R
}.

(** std::accumulate, FlameMasterReactor.cpp:849-850 *)
Definition accumulate (l : list R) : R := fold_left Rplus l 0.

Section Reactor.
Variable m : mechanism.

(** FlameMasterReactor.cpp:40-46 [UpdateMolesFromMassFractions]: the vector *)
Definition moles_of (rho : R) (Y : list R) : list R := map (fun p => fst p * rho / snd p) (combine Y (molarMasses m)).
(** FlameMasterReactor.cpp:40-46 *)
Definition UpdateMolesFromMassFractions (r : reactor) : reactor :=
  mkReactor (massFractions r) (moles_of (density r) (massFractions r)) (temperature r) (density r) (enthalpies r) (heat_capacities r)
    (thermoTemp r).

(** FlameMasterReactor.cpp:32-38 [UpdateMassFractionsFromMoles] *)
Definition UpdateMassFractionsFromMoles (r : reactor) : reactor :=
  mkReactor (map (fun p => fst p * snd p / density r) (combine (moles r) (molarMasses m))) (moles r) (temperature r) (density r)
    (enthalpies r) (heat_capacities r) (thermoTemp r).

(** FlameMasterReactor.cpp:67-78 [UpdateThermoState] *)
Definition UpdateThermoState (T : R) (r : reactor) : reactor :=
  if Req_EM_T (thermoTemp r) T then r
  else mkReactor (massFractions r) (moles r) (temperature r) (density r) (fst (ThermoData m T)) (snd (ThermoData m T)) T.

(** FlameMasterReactor.cpp:890-893 [SetTemperature] *)
Definition SetTemperature (T : R) (r : reactor) : reactor :=
  UpdateThermoState T (mkReactor (massFractions r) (moles r) T (density r) (enthalpies r) (heat_capacities r) (thermoTemp r)).

(** FlameMasterReactor.hpp:280 [SetDensity] *)
Definition SetDensity (rho : R) (r : reactor) : reactor :=
  mkReactor (massFractions r) (moles r) (temperature r) rho (enthalpies r) (heat_capacities r) (thermoTemp r).

(** writes the mass fractions, FlameMasterReactor.cpp:845-855 *)
Definition with_fractions (Y : list R) (r : reactor) : reactor :=
  mkReactor Y (moles r) (temperature r) (density r) (enthalpies r) (heat_capacities r) (thermoTemp r).

(** FlameMasterReactor.cpp:845-857 [SetMassFractions]; entries after the end of the argument keep their values *)
Definition SetMassFractions (fractions : list R) (r : reactor) : reactor :=
  let Y := map (Rmax 0) fractions ++ skipn (length fractions) (massFractions r) in
  let sum := accumulate Y in
  let Y' := if Req_EM_T sum 0 then Y else map (fun frac => frac / sum) Y in
  UpdateMolesFromMassFractions (with_fractions Y' r).

(** FlameMasterReactor.cpp:895-905 [SetMoleFractions] *)
Definition to_mass (X : list R) : list R :=
  let totalMoles := accumulate (map (fun p => fst p * snd p) (combine X (molarMasses m))) in
  map (fun p => fst p * (snd p / totalMoles)) (combine X (molarMasses m)).
(** FlameMasterReactor.cpp:895-905 *)
Definition SetMoleFractions (fractions : list R) (r : reactor) : reactor :=
  let r1 := SetMassFractions fractions r in
  UpdateMolesFromMassFractions (with_fractions (to_mass (massFractions r1)) r1).

(** FlameMasterReactor.cpp:820-828: number of a species *)
Fixpoint species_index (name : string) (ns : list string) (i : nat) : option nat :=
  match ns with
  | [] => None
  | n :: ns' => if string_dec name n then Some i else species_index name ns' (S i)
  end.

(** state_.massFractions[i] = speciesValue, FlameMasterReactor.cpp:823 *)
Fixpoint put (i : nat) (v : R) (l : list R) : list R :=
  match l, i with [], _ => [] | _ :: r, O => v :: r | x :: r, S j => x :: put j v r end.

(** FlameMasterReactor.cpp:804-834: the loop over the entries of the string, which is given as the list of its entries (the
    parser is left out); None in the second place is the exception *)
Fixpoint assign_entries (entries : list (string * R)) (Y : list R) (speciesSum : R) : list R * option R :=
  match entries with
  | [] => (Y, Some speciesSum)
  | (name, v) :: rest =>
      match species_index name (names m) 0 with
      | Some i => assign_entries rest (put i v Y) (speciesSum + v)
      | None => (Y, None)
      end
  end.

(** FlameMasterReactor.cpp:795-843 [SetMassFractions] with a string; true if it returns, false if it throws *)
Definition SetMassFractionsString (entries : list (string * R)) (r : reactor) : reactor * bool :=
  match assign_entries entries (map (fun _ => 0) (massFractions r)) 0 with
  | (Y, Some speciesSum) => (UpdateMolesFromMassFractions (with_fractions (map (fun y => y / speciesSum) Y) r), true)
  | (Y, None) => (with_fractions Y r, false)
  end.

(** FlameMasterReactor.cpp:476-479 [GetMoleFractions] *)
Definition GetMoleFractions (r : reactor) : list R := moles (UpdateMolesFromMassFractions r).

(** FlameMasterReactor.cpp:517-522 [GetMeanMolarMass] *)
Definition GetMeanMolarMass (r : reactor) : R :=
  1 / fold_left (fun acc p => acc + fst p / snd p) (combine (massFractions r) (molarMasses m)) 0.

(** FlameMasterReactor.cpp:769-777 [MeanX] *)
Definition MeanX (quantity : list R) (r : reactor) : R :=
  fold_left (fun acc p => acc + fst (fst p) * snd (fst p) * GetMeanMolarMass r / snd p)
    (combine (combine quantity (massFractions r)) (molarMasses m)) 0.

(** FlameMasterReactor.cpp:779-785 [MeanY] *)
Definition MeanY (quantity : list R) (r : reactor) : R :=
  fold_left (fun acc p => acc + fst p * snd p) (combine quantity (massFractions r)) 0.

(** FlameMasterReactor.hpp:222-225 [GetPressure] *)
Definition GetPressure (r : reactor) : R := density r * gasConstant m / GetMeanMolarMass r * temperature r.
(** FlameMasterReactor.hpp:240-243 [SetPressure] *)
Definition SetPressure (p : R) (r : reactor) : reactor := SetDensity (p * GetMeanMolarMass r / temperature r / gasConstant m) r.

(** FlameMasterReactor.cpp:485-487 [GetEnthalpy] *)
Definition GetEnthalpy (r : reactor) : R := MeanY (enthalpies r) r.
(** FlameMasterReactor.cpp:498-500 [GetCp] *)
Definition GetCp (r : reactor) : R := MeanY (heat_capacities r) r.
(** FlameMasterReactor.cpp:506-508 [GetCv] *)
Definition GetCv (r : reactor) : R := GetCp r - gasConstant m / GetMeanMolarMass r.

(** FlameMasterReactor.cpp:576-584 [GetInternalEnergy] *)
Definition GetInternalEnergy (r : reactor) : R :=
  GetEnthalpy r -
  gasConstant m * fold_left (fun acc p => acc + fst p / snd p) (combine (massFractions r) (molarMasses m)) 0 * temperature r.

(** FlameMasterReactor.cpp:493-496 [GetEnthalpies] updates the data *)
Definition GetEnthalpies (r : reactor) : reactor := UpdateThermoState (temperature r) r.

(** FlameMasterReactor.cpp:275-343: the constructor; all vectors are zero before *)
Definition construct : reactor :=
  let zeros := map (fun _ : R => 0) (molarMasses m) in
  let r0 := mkReactor (match zeros with [] => [] | _ :: r => 1 :: r end) zeros 0 0 zeros zeros 0 in
  SetPressure 101325 (SetTemperature 300 (UpdateMolesFromMassFractions r0)).

(** ** Packs: one lane *)

(** FlameMasterReactor.cpp:876-888 [SetMassFractionsArray] *)
Definition SetMassFractionsLane (new : list R) : list R :=
  let Y := map Rabs new in
  let sum := accumulate Y in
  let sum' := if Rlt_dec 0 sum then sum else 1 in
  map (fun y => y / sum') Y.

(** FlameMasterReactor.cpp:859-874 [SetMassFractionsArray] with a mask *)
Definition SetMassFractionsLaneMasked (active : bool) (new : list R) : list R :=
  let Y := map (Rmax 0) (if active then new else match new with [] => [] | _ :: r => 1 :: map (fun _ => 0) r end) in
  let sum := accumulate Y in
  let sum' := if Rlt_dec 0 sum then sum else 1 in
  map (fun y => y / sum') Y.

(** FlameMasterReactor.cpp:524-533 [GetMeanMolarMassArray] *)
Definition MeanMolarMassLane (Y : list R) : R :=
  let minv := fold_left (fun acc p => acc + fst p / snd p) (combine Y (molarMasses m)) 0 in
  let minv' := if Rlt_dec 0 minv then minv else 1 in
  if Rlt_dec 0 minv' then 1 / minv' else 0.

(** FlameMasterReactor.hpp:245-251 [SetPressureArray]: the density *)
Definition DensityLane (p T : R) (Y : list R) : R :=
  p * MeanMolarMassLane Y / (if Rlt_dec 0 T then T else 1) / gasConstant m.

(** ** Chemistry *)

(** FlameMasterReactor.cpp:95-165 [OdeRhsAdvance]: derivatives of the temperature and of the concentrations; the data used are
    those of the temperature T (143, see [rhs_cache]) *)
Definition OdeRhsAdvance (rho : R) (h cp : list R) (T : R) (c : list R) : R * list R :=
  let concentrationSum := accumulate c in
  let pressure := concentrationSum * gasConstant m * T in
  let cdot := ProductionRates m c T pressure in
  let R0 := gasConstant m in
  let '(tempDt, meanCp, meanMolarMass) :=
    fold_left (fun acc p =>
        let '(a, b, d) := acc in
        let '(hi, cpi, ci, dci, Mi) := p in
        (a + (hi - R0 / Mi * T) * (dci * Mi), b + cpi * ci * Mi / rho, d + ci * Mi / concentrationSum))
      (combine (combine (combine (combine h cp) c) cdot) (molarMasses m)) (0, 0, 0) in
  (tempDt / (rho * (R0 / meanMolarMass - meanCp)), cdot).

(** FlameMasterReactor.cpp:143: every evaluation of the right-hand side updates the data of the reactor *)
Definition rhs_cache (T : R) (r : reactor) : reactor := UpdateThermoState T r.

(** The solver of ordinary differential equations (ode_solver/OdeSolver.hpp), an arbitrary function: for the length of the step,
    the density and the start (temperature and concentrations) it evaluates the right-hand side at some temperatures and returns
    the final temperature and concentrations *)
Definition ode_solver := R -> R -> R * list R -> list R * (R * list R).

(** FlameMasterReactor.cpp:408-413: integrate from the vector with temperature and concentrations *)
Definition Integrate (solver : ode_solver) (dt : R) (r : reactor) : reactor :=
  let '(evals, result) := solver dt (density r) (temperature r, moles r) in
  let r2 := fold_left (fun r T => rhs_cache T r) evals r in
  UpdateMassFractionsFromMoles
    (mkReactor (massFractions r2) (snd result) (fst result) (density r2) (enthalpies r2) (heat_capacities r2) (thermoTemp r2)).

(** FlameMasterReactor.cpp:400-414 [Advance] *)
Definition Advance (solver : ode_solver) (dt : R) (r : reactor) : reactor :=
  if Req_EM_T dt 0 then r else Integrate solver dt (UpdateMolesFromMassFractions r).

(** FlameMasterReactor.cpp:443-470 [AdvanceAndFindMaxdT]: the state of the reactor afterwards *)
Definition AdvanceAndFindMaxdT (solver : ode_solver) (dt : R) (r : reactor) : reactor := Integrate solver dt r.

(** FlameMasterReactor.cpp:443-470 [AdvanceAndFindMaxdT], the returned time: [feedback] are the temperatures and times passed to the feedback
    function (data->oldTemperature is not changed); the time that is returned *)
Definition FindMaxdT (T0 : R) (feedback : list (R * R)) : R :=
  snd (snd (fold_left (fun data y =>
      let '(oldTime, (maxdT, argmaxdT)) := data in
      let '(newTemperature, t) := y in
      let dT := (T0 - newTemperature) / (oldTime - t) in
      if Rlt_dec maxdT dT then (t, (dT, t)) else (t, (maxdT, argmaxdT)))
    feedback (0, (-9000, -1)))).

(** ** The source term *)

(** A cell with one component of the momentum: IdealGasMix state, KineticSourceTerm.cpp:56-72 *)
Record cell := mkCell { c_density : R; c_momentum : R; c_energy : R; c_species : list R; c_temperature : R }.

(** IdealGasMix.cpp:149-165 [CompleteFromReactor] (pressure, speed of sound, c_p and gamma are left out) *)
Definition CompleteFromReactor (r : reactor) (velocity : R) : cell :=
  let rho := density r in
  let momentum := rho * velocity in
  let rhoE_internal := rho * GetInternalEnergy r in
  let rhoE_kin := 1 / 2 * (momentum * momentum) / rho in
  mkCell rho momentum (rhoE_internal + rhoE_kin) (map (fun Yi => rho * Yi) (massFractions r)) (temperature r).

(** KineticSourceTerm.cpp:59-67: one cell *)
Definition kinetic_cell (solver : ode_solver) (dt : R) (r : reactor) (s : cell) : reactor * cell :=
  let r1 := SetMassFractions (c_species s) r in
  let r2 := SetTemperature (c_temperature s) r1 in
  let r3 := SetDensity (c_density s) r2 in
  let r4 := Advance solver dt r3 in
  (r4, CompleteFromReactor r4 (c_momentum s / c_density s)).

(** FlameMasterReactor.cpp:597-599 [SetInternalEnergy]: the iteration of EnergyModel sets the temperature and reads energy and heat
    capacity (FlameMasterReactor.cpp:229-234); before the first step they are read without setting the temperature (190-191), which
    is the same if the data are those of the temperature of the reactor (C89_cache).  None is the exception. *)
Definition SetInternalEnergy (energy dTtol : R) (r : reactor) : option reactor :=
  match SetEnergy (fun T => GetInternalEnergy (SetTemperature T r)) (fun T => GetCv (SetTemperature T r)) (temperature r) energy dTtol with
  | None => None
  | Some T => Some (SetTemperature T r)
  end.

(** IdealGasMix.cpp:214-226 [CompleteFromCons]; 1e-6 is the default tolerance, FlameMasterReactor.hpp:457; the assertions are left out *)
Definition CompleteFromCons (rho momentum energy : R) (species : list R) (r : reactor) : option cell :=
  let r1 := SetMassFractions species (SetDensity rho r) in
  let rhoE_kin := 1 / 2 * (momentum * momentum) / rho in
  let e_internal := (energy - rhoE_kin) / rho in
  let r2 := SetTemperature 300 r1 in
  match SetInternalEnergy e_internal (1 / 1000000) r2 with
  | None => None
  | Some r3 => Some (CompleteFromReactor r3 (momentum / rho))
  end.
End Reactor.

(** ** Assignment *)

(** A reactor object: scalar state and state for packs (mass fractions, temperature, density of one lane), FlameMasterReactor.hpp
    private members *)
Record reactor_object := mkObject { scalar_state : reactor; array_state : list R * R * R }.

(** FlameMasterReactor.cpp:361-369 move assignment and 371-375 copy assignment (which is a move of a copy) *)
Definition assign (this other : reactor_object) : reactor_object := mkObject (scalar_state other) (array_state this).
(** FlameMasterReactor.cpp:345-359 copy and move constructor *)
Definition construct_from (other : reactor_object) : reactor_object := other.
