(** include/fub/AMReX/boundary_condition/GenericPressureValveBoundary.hpp and
    src/AMReX/boundary_condition/PressureValveBoundary.cpp: the state machines of the valves. *)
From Coq Require Import List Reals ZArith Bool.
Import ListNotations.
Local Open Scope R_scope.

(** What a call of FillBoundary sees: mean pressure in front of the valve, pressure and mode of the compressor,
    time of the hierarchy.  The mean pressure is any number; filling the ghost cells is an action. *)
Record event := mkEv { inner : R; p_comp : R; sec : bool; time : R }.

(** The four valve types, GenericPressureValveBoundary.hpp:194-282: a rule for the opening time and a blocking rule *)
Inductive valve := ReducedModelDemo | Klein | Deflagration | SwitchToSEC.

(** Lines 41-56, 58-72, 74-83, 85-103 *)
Definition ChangeTOpened (v : valve) (t_opened : option R) (e : event) : option R :=
  match v with
  | ReducedModelDemo =>
      match t_opened, Rle_dec (inner e) (p_comp e) with
      | None, left _ => Some (time e)
      | _, _ => if Rlt_dec (11 / 10 * p_comp e) (inner e) then None else t_opened
      end
  | Klein =>
      match t_opened, Rle_dec (inner e) (p_comp e) with
      | None, left _ => Some (time e)
      | _, _ => if Rlt_dec (p_comp e) (inner e) then None else t_opened
      end
  | Deflagration => Some (time e)
  | SwitchToSEC =>
      if negb (sec e) then Some (time e) else
      match t_opened, Rle_dec (inner e) (p_comp e) with
      | None, left _ => Some (time e)
      | _, _ => if Rlt_dec (p_comp e) (inner e) then None else t_opened
      end
  end.

(** Lines 105-142 *)
Definition IsBlocked (v : valve) (e : event) : bool :=
  match v with
  | ReducedModelDemo | Klein => if Rlt_dec (p_comp e) (inner e) then true else false
  | Deflagration => false
  | SwitchToSEC => if negb (sec e) then false else if Rlt_dec (p_comp e) (inner e) then true else false
  end.

(** What happens to the ghost cells: reflected, inflow with a time since the opening, or an empty optional is read *)
Inductive action := Reflect | Inflow (t_diff : R) | NoOpeningTime.

(** Lines 339-367 *)
Definition FillBoundary (v : valve) (t_opened : option R) (e : event) : option R * action :=
  let t_opened := ChangeTOpened v t_opened e in
  (t_opened, if IsBlocked v e then Reflect
             else match t_opened with Some t => Inflow (time e - t) | None => NoOpeningTime end).

(** A history of calls, starting without an opening time (line 182): final value and all actions *)
Fixpoint fills (v : valve) (t_opened : option R) (h : list event) : option R * list action :=
  match h with
  | [] => (t_opened, [])
  | e :: r => let '(t, a) := FillBoundary v t_opened e in let '(t', l) := fills v t r in (t', a :: l)
  end.

(** ** Air and fuel *)

(** PressureValveBoundary.hpp:55-62 *)
Inductive gate := open_air | open_fuel | closed.
Record fuel_valve := mkFV { g_state : gate; last_fuel : R }.
(** PressureValveBoundary.hpp:40-53 *)
Record fuel_options := mkFO { limit : R; interval : R; offset : R }.
(** PressureValveBoundary.hpp:60-61; lowest() is some negative number *)
Definition fresh_valve (lowest : R) : fuel_valve := mkFV open_air lowest.

(** PressureValveBoundary.cpp:136-175 *)
Definition ChangeState (o : fuel_options) (v : fuel_valve) (mean t : R) : fuel_valve :=
  let next := if Rlt_dec (last_fuel v) 0 then offset o else last_fuel v + interval o in
  match g_state v with
  | closed => mkFV open_air (last_fuel v)
  | open_fuel => if Rlt_dec (limit o) mean then mkFV open_air (last_fuel v) else v
  | open_air => if Rlt_dec next t then mkFV open_fuel next else v
  end.

(** PressureValveBoundary.hpp:67-76: the archive holds the state as an integer and last_fuel *)
Definition gate_int (g : gate) : Z := match g with open_air => 0 | open_fuel => 1 | closed => 2 end.
Definition int_gate (z : Z) : gate := if Z.eqb z 0 then open_air else if Z.eqb z 1 then open_fuel else closed.
Definition save_valve (v : fuel_valve) : Z * R := (gate_int (g_state v), last_fuel v).
Definition load_valve (a : Z * R) : fuel_valve := mkFV (int_gate (fst a)) (snd a).

(** A call of FillBoundary on a level with a boundary (PressureValveBoundary.cpp:178-204: other levels and directions
    return without looking at the valve), or a restart from an archive *)
Inductive fuel_event := Fill (mean t : R) | Skip | Restart.
Definition fuel_step (o : fuel_options) (v : fuel_valve) (e : fuel_event) : fuel_valve :=
  match e with
  | Fill mean t => ChangeState o v mean t
  | Skip => v
  | Restart => load_valve (save_valve v)
  end.
(** All valves along a history *)
Fixpoint fuel_trace (o : fuel_options) (v : fuel_valve) (h : list fuel_event) : list (fuel_valve * fuel_event * fuel_valve) :=
  match h with
  | [] => []
  | e :: r => let v' := fuel_step o v e in (v, e, v') :: fuel_trace o v' r
  end.
