(** Vocabulary for C43 and C44. *)
From Coq Require Import List Reals.
From Verif Require Import ValveModel.
Import ListNotations.
Local Open Scope R_scope.

(** In a history of events the valve is open since time t0: it was opened by an event at t0, no later event closes it,
    and before that event it was closed: none opened it since the last closing (or since the start). *)
Definition open_since (opens closes : event -> Prop) (h : list event) (t0 : R) : Prop :=
  exists before e0 after, h = before ++ e0 :: after /\ time e0 = t0 /\ opens e0 /\ Forall (fun e => ~ closes e) after /\
    exists a b, before = a ++ b /\ Forall (fun e => ~ opens e) b /\ (a = [] \/ exists a' c, a = a' ++ [c] /\ closes c).

(** Pressure in front of the valve at most that of the compressor, above it, more than ten percent above it. *)
Definition below (e : event) : Prop := inner e <= p_comp e.
Definition above (e : event) : Prop := p_comp e < inner e.
Definition far_above (e : event) : Prop := 11 / 10 * p_comp e < inner e.

(** Events in the order of time. *)
Fixpoint in_order (h : list event) : Prop :=
  match h with
  | [] => True
  | e :: r => (forall e', In e' r -> time e <= time e') /\ in_order r
  end.

(** When gas may flow in. *)
Definition flows (v : valve) (e : event) : Prop :=
  match v with
  | ReducedModelDemo | Klein => below e
  | Deflagration => True
  | SwitchToSEC => sec e = false \/ below e
  end.

(** Number of changes from air to fuel in a trace. *)
Fixpoint fuel_starts (tr : list (fuel_valve * fuel_event * fuel_valve)) : nat :=
  match tr with
  | [] => 0
  | (v, _, v') :: r =>
      match g_state v, g_state v' with open_air, open_fuel => S (fuel_starts r) | _, _ => fuel_starts r end
  end.
