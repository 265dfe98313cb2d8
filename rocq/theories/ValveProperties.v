(** C43 and C44: valves at the inlet. *)
From Coq Require Import List Reals Lra Lia.
From Verif Require Import ValveModel ValveSpec ValveProofs.
Import ListNotations.
Local Open Scope R_scope.

(** C43: for every valve type, every history in the order of time and every further call: if the pressure does not allow
    inflow the ghost cells are reflected; otherwise an opening time is recorded which is not later than now, and the
    inflow is given the time passed since then. *)
Theorem C43_call : forall (v : valve) (h : list event) (e : event), 0 <= p_comp e -> in_order (h ++ [e]) ->
  exists a, snd (fills v None (h ++ [e])) = snd (fills v None h) ++ [a] /\
  (~ flows v e -> a = Reflect) /\
  (flows v e -> exists t0, fst (fills v None (h ++ [e])) = Some t0 /\ a = Inflow (time e - t0) /\ t0 <= time e).
Proof. exact fill_action. Qed.
Print Assumptions C43_call.

(** For the Klein valve the recorded time is exactly the time since which gas has been allowed to flow in without
    interruption. *)
Theorem C43_klein_since : forall (h : list event) (t : R),
  fst (fills Klein None h) = Some t <-> open_since below above h t.
Proof. intros. rewrite fills_state. apply klein_since. Qed.
Print Assumptions C43_klein_since.

(** For the valve of the reduced model it is the time of the first event which allowed inflow after the pressure last
    exceeded that of the compressor by more than ten percent. *)
Theorem C43_demo_since : forall (h : list event) (t : R), Forall (fun e => 0 <= p_comp e) h ->
  fst (fills ReducedModelDemo None h) = Some t <-> open_since below far_above h t.
Proof. intros. rewrite fills_state. apply demo_since. auto. Qed.
Print Assumptions C43_demo_since.

(** For the switching valve it is the time of the last call outside the SEC mode, or of the first call which allowed
    inflow after the last one in SEC mode which did not. *)
Theorem C43_switch_since : forall (h : list event) (t : R),
  fst (fills SwitchToSEC None h) = Some t <->
  exists before e0 after, h = before ++ e0 :: after /\ time e0 = t /\ Forall (fun e => sec e = true /\ below e) after /\
    (sec e0 = false \/ sec e0 = true /\ below e0 /\ (before = [] \/ exists b c, before = b ++ [c] /\ sec c = true /\ above c)).
Proof. intros. rewrite fills_state. apply switch_since. Qed.
Print Assumptions C43_switch_since.

(** "Open without interruption" fails for two types.  Reduced model: inflow at t1, reflection at t2 with a pressure
    between 1 and 1.1 times that of the compressor, inflow at t3: the time given to the inflow still counts from t1. *)
Theorem C43_demo_refuted : forall p t1 t2 t3, 0 < p ->
  snd (fills ReducedModelDemo None [mkEv p p false t1; mkEv (21 / 20 * p) p false t2; mkEv p p false t3])
  = [Inflow (t1 - t1); Reflect; Inflow (t3 - t1)].
Proof.
  intros p t1 t2 t3 Hp. cbn [fills FillBoundary ChangeTOpened IsBlocked inner p_comp time sec].
  destruct (Rle_dec p p); [|lra]. destruct (Rlt_dec p p); [lra|]. destruct (Rlt_dec p (21 / 20 * p)); [|lra].
  destruct (Rle_dec (21 / 20 * p) p); [lra|]. destruct (Rlt_dec (11 / 10 * p) (21 / 20 * p)); [lra|].
  destruct (Rlt_dec (11 / 10 * p) p); [lra|]. reflexivity.
Qed.
Print Assumptions C43_demo_refuted.

(** Deflagration: always open, yet the time since the opening is always zero. *)
Theorem C43_deflagration_refuted : forall (h : list event),
  snd (fills Deflagration None h) = map (fun _ => Inflow 0) h.
Proof.
  intros h. generalize (@None R). induction h as [|e h IH]; intros s; [reflexivity|]. cbn [fills FillBoundary ChangeTOpened IsBlocked map].
  specialize (IH (Some (time e))). destruct (fills Deflagration (Some (time e)) h) as [t l]. cbn [snd] in *. rewrite IH.
  replace (time e - time e) with 0 by ring. reflexivity.
Qed.
Print Assumptions C43_deflagration_refuted.

(** A history in order: open at 0, closed at 1 (pressure 2 against 1), open since 2. *)
Example C43_example :
  let h := [mkEv 1 1 true 0; mkEv 2 1 true 1; mkEv (1 / 2) 1 true 2; mkEv 1 1 true 3] in
  in_order h /\ open_since below above h 2 /\ open_since below far_above h 2 /\ fst (fills SwitchToSEC None h) = Some 2.
Proof.
  cbv zeta. split; [|split; [|split]].
  - cbn. repeat split; try (intros e' [<- | [<- | [<- | []]]]; cbn; lra); try (intros e' [<- | [<- | []]]; cbn; lra);
      try (intros e' [<- | []]; cbn; lra); intros e' [].
  - exists [mkEv 1 1 true 0; mkEv 2 1 true 1], (mkEv (1 / 2) 1 true 2), [mkEv 1 1 true 3]. unfold below, above.
    split; [reflexivity|]. split; [reflexivity|]. split; [cbn; lra|]. split; [apply Forall_cons; [cbn; lra | apply Forall_nil]|].
    exists [mkEv 1 1 true 0; mkEv 2 1 true 1], []. split; [reflexivity|]. split; [apply Forall_nil|]. right.
    exists [mkEv 1 1 true 0], (mkEv 2 1 true 1). split; [reflexivity | cbn; lra].
  - exists [mkEv 1 1 true 0; mkEv 2 1 true 1], (mkEv (1 / 2) 1 true 2), [mkEv 1 1 true 3]. unfold below, far_above.
    split; [reflexivity|]. split; [reflexivity|]. split; [cbn; lra|]. split; [apply Forall_cons; [cbn; lra | apply Forall_nil]|].
    exists [mkEv 1 1 true 0; mkEv 2 1 true 1], []. split; [reflexivity|]. split; [apply Forall_nil|]. right.
    exists [mkEv 1 1 true 0], (mkEv 2 1 true 1). split; [reflexivity | cbn; lra].
  - apply C43_switch_since. exists [mkEv 1 1 true 0; mkEv 2 1 true 1], (mkEv (1 / 2) 1 true 2), [mkEv 1 1 true 3]. unfold below, above.
    split; [reflexivity|]. split; [reflexivity|]. split; [apply Forall_cons; [cbn; split; [auto | lra] | apply Forall_nil]|].
    right. split; [reflexivity|]. split; [cbn; lra|]. right. exists [mkEv 1 1 true 0], (mkEv 2 1 true 1). split; [reflexivity|]. split; [reflexivity | cbn; lra].
Qed.

(** C44: for every history of calls and restarts and at every point of it, with k the number of fuel starts before:
    the valve is never closed; air turns to fuel exactly if the time is past offset + k interval, and that is what is
    recorded; fuel turns to air exactly if the mean pressure is above the limit. *)
Theorem C44_schedule : forall (o : fuel_options) (lowest : R) (h : list fuel_event) pre v e v' post,
  lowest < 0 -> 0 <= offset o -> 0 <= interval o ->
  fuel_trace o (fresh_valve lowest) h = pre ++ (v, e, v') :: post ->
  let due := offset o + INR (fuel_starts pre) * interval o in
  g_state v' <> closed /\
  (g_state v = open_air -> (g_state v' = open_fuel <-> exists mean t, e = Fill mean t /\ due < t)) /\
  (g_state v = open_air -> g_state v' = open_fuel -> last_fuel v' = due) /\
  (g_state v = open_fuel -> (g_state v' = open_air <-> exists mean t, e = Fill mean t /\ limit o < mean)).
Proof. exact fuel_schedule. Qed.
Print Assumptions C44_schedule.

(** With a negative offset the interval is never used: in air the valve turns to fuel as soon as the time is past the
    offset, however recent the last fuel phase. *)
Theorem C44_negative_offset : forall (o : fuel_options) (lowest : R) (h : list fuel_event) (mean t : R),
  lowest < 0 -> offset o < 0 ->
  let v := fold_left (fuel_step o) h (fresh_valve lowest) in
  g_state v = open_air -> offset o < t -> fuel_step o v (Fill mean t) = mkFV open_fuel (offset o).
Proof.
  intros o lowest h mean t Hl Ho v Hv Ht.
  assert (L : last_fuel v < 0).
  { unfold v. clear Hv v. assert (G : last_fuel (fresh_valve lowest) < 0) by exact Hl. revert G. generalize (fresh_valve lowest).
    induction h as [|e h IH]; intros w Hw; cbn [fold_left]; [auto|]. apply IH. destruct e; cbn [fuel_step]; [|auto|rewrite restart_same; auto].
    unfold ChangeState. destruct (g_state w).
    - destruct (Rlt_dec (last_fuel w) 0); [|contradiction]. destruct (Rlt_dec _ _); auto.
    - destruct (Rlt_dec _ _); auto.
    - auto. }
  cbn [fuel_step]. unfold ChangeState. rewrite Hv. destruct (Rlt_dec (last_fuel v) 0); [|contradiction]. destruct (Rlt_dec _ _); [auto | contradiction].
Qed.
Print Assumptions C44_negative_offset.

(** Offset 1, interval 2, limit 3: fuel at 3/2, air at mean pressure 4, a restart, no fuel at 2, fuel again at 7/2. *)
Example C44_example :
  let o := mkFO 3 2 1 in
  let tr := fuel_trace o (fresh_valve (-1)) [Fill 1 (1 / 2); Fill 1 (3 / 2); Fill 4 (7 / 4); Restart; Skip; Fill 1 2; Fill 1 (7 / 2)] in
  map (fun x => g_state (snd x)) tr = [open_air; open_fuel; open_air; open_air; open_air; open_air; open_fuel] /\
  fuel_starts tr = 2%nat /\ last_fuel (fold_left (fuel_step o) [Fill 1 (1 / 2); Fill 1 (3 / 2); Fill 4 (7 / 4); Restart; Skip; Fill 1 2; Fill 1 (7 / 2)] (fresh_valve (-1))) = 3.
Proof.
  cbv zeta. cbn [fuel_trace fuel_step fold_left]. set (o := mkFO 3 2 1). unfold fresh_valve.
  assert (E1 : ChangeState o (mkFV open_air (-1)) 1 (1 / 2) = mkFV open_air (-1)).
  { unfold ChangeState. cbn. destruct (Rlt_dec (-1) 0); [|lra]. destruct (Rlt_dec 1 (1 / 2)); [lra | reflexivity]. }
  assert (E2 : ChangeState o (mkFV open_air (-1)) 1 (3 / 2) = mkFV open_fuel 1).
  { unfold ChangeState. cbn. destruct (Rlt_dec (-1) 0); [|lra]. destruct (Rlt_dec 1 (3 / 2)); [reflexivity | lra]. }
  assert (E3 : ChangeState o (mkFV open_fuel 1) 4 (7 / 4) = mkFV open_air 1).
  { unfold ChangeState. cbn. destruct (Rlt_dec 3 4); [reflexivity | lra]. }
  assert (E4 : ChangeState o (mkFV open_air 1) 1 2 = mkFV open_air 1).
  { unfold ChangeState. cbn. destruct (Rlt_dec 1 0); [lra|]. destruct (Rlt_dec (1 + 2) 2); [lra | reflexivity]. }
  assert (E5 : ChangeState o (mkFV open_air 1) 1 (7 / 2) = mkFV open_fuel 3).
  { unfold ChangeState. cbn. destruct (Rlt_dec 1 0); [lra|]. destruct (Rlt_dec (1 + 2) (7 / 2)); [f_equal; ring | lra]. }
  rewrite E1, E2, E3, restart_same, E4, E5. split; [reflexivity|]. split; reflexivity.
Qed.
