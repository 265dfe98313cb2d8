(** Vocabulary for C164. *)
From Coq Require Import String List Reals ZArith.
From Verif Require Import TableModel.
Import ListNotations.
Local Open Scope string_scope.

(** What the user expects below each heading *)
Inductive means (s : control) : string -> R -> Prop :=
| m_rpm : means s "current_rpm" (current_rpm s)
| m_power : means s "power_out" (power_out s)
| m_fuel : means s "fuel_consumption" (fuel_consumption s)
| m_rate : means s "fuel_consumption_rate" (fuel_consumption_rate s)
| m_efficiency : means s "efficiency" (efficiency s)
| m_cp : means s "compressor_pressure" (pressure (compressor s))
| m_cT : means s "compressor_temperature" (temperature (compressor s))
| m_cP : means s "compressor_power" (power (compressor s))
| m_ci : means s "compressor_mass_flow_in" (mass_flow_in (compressor s))
| m_co : means s "compressor_mass_flow_out" (mass_flow_out (compressor s))
| m_on : SEC_Mode (compressor s) = true -> means s "compressor_SEC_Mode" 1
| m_off : SEC_Mode (compressor s) = false -> means s "compressor_SEC_Mode" 0
| m_tp : means s "turbine_pressure" (pressure (turbine s))
| m_tT : means s "turbine_temperature" (temperature (turbine s))
| m_tP : means s "turbine_power" (power (turbine s))
| m_ti : means s "turbine_mass_flow_in" (mass_flow_in (turbine s))
| m_to : means s "turbine_mass_flow_out" (mass_flow_out (turbine s)).

(** A name with a number below the limit is free *)
Definition has_free_name (limit : nat) (fs : filesystem) (path : string) : Prop := exists i, (1 <= i <= limit)%nat /\ fs (numbered path i) = None.
