(** C91: interfaces to the solvers for ordinary differential equations. *)
From Coq Require Import List ZArith Reals Lra Lia Bool.
From Verif Require Import OdeModel OdeSpec.
Import ListNotations.
Local Open Scope R_scope.

(** C91 (codes): the routine is asked for the solution over the whole interval [t0, t0 + dt]; if it succeeds its result is returned, and for
    every code that is no success, except "step size becomes too small", an exception is thrown that belongs to the code *)
Theorem C91_radau_codes :
  forall kernel garbage system y0 t0 dt idid y, kernel (fun t y => Some (system t y)) t0 (t0 + dt) y0 = Some (idid, y) ->
    (successful idid -> radau_integrate kernel garbage system y0 t0 dt = Returned y) /\
    (~ successful idid -> idid <> (-3)%Z -> exists e, radau_integrate kernel garbage system y0 t0 dt = Threw e /\
       (e = InputIsNotConsistent <-> idid = (-1)%Z) /\ (e = LargerNMaxIsNeeded <-> idid = (-2)%Z) /\
       (e = MatrixIsRepeatedlySingular <-> idid = (-4)%Z) /\ (e = RhsEvaluatesToNaN <-> idid = (-42)%Z) /\
       e <> StepSizeBecomesTooSmall).
Proof.
  intros kernel garbage system y0 t0 dt idid y E. unfold radau_integrate.
  change (radau_rhs garbage system UserData) with (fun t y => Some (system t y)). rewrite E. split.
  - intros [-> | ->]; reflexivity.
  - intros NS N3. destruct (Z.eqb_spec idid 1) as [-> |]; [exfalso; apply NS; left; reflexivity|].
    destruct (Z.eqb_spec idid 2) as [-> |]; [exfalso; apply NS; right; reflexivity|].
    destruct (Z.eqb_spec idid (-1)) as [-> |]; [eexists; split; [reflexivity|]; repeat split; intros; congruence|].
    destruct (Z.eqb_spec idid (-2)) as [-> |]; [eexists; split; [reflexivity|]; repeat split; intros; congruence|].
    destruct (Z.eqb_spec idid (-3)) as [-> |]; [congruence|].
    destruct (Z.eqb_spec idid (-4)) as [-> |]; [eexists; split; [reflexivity|]; repeat split; intros; congruence|].
    destruct (Z.eqb_spec idid (-42)) as [-> |]; [eexists; split; [reflexivity|]; repeat split; intros; congruence|].
    eexists; split; [reflexivity|]; repeat split; intros; congruence.
Qed.

Print Assumptions C91_radau_codes.

Definition example_system : system_type := fun _ y => map (fun _ => 1) y.
(** a routine that knows the solution of y' = 1 *)
Definition example_kernel (code : Z) : radau_kernel := fun rhs a b y =>
  match rhs a y with None => None | Some d => Some (code, map (fun p => fst p + (b - a) * snd p) (combine y d)) end.

Example C91_example : example_kernel 1 (fun t y => Some (example_system t y)) 1 (1 + 1) [3; 5] = Some (1%Z, [3 + (1 + 1 - 1) * 1; 5 + (1 + 1 - 1) * 1]) /\
  example_kernel (-4) (fun t y => Some (example_system t y)) 1 (1 + 1) [3] = Some ((-4)%Z, [3 + (1 + 1 - 1) * 1]).
Proof. split; reflexivity. Qed.

(** C91 (retry), refuted: if the step size becomes too small the call is repeated with a pointer to the wrong object; every routine that
    evaluates the right-hand side then has undefined behaviour *)
Theorem C91_retry_undefined_refuted :
  forall kernel system y0 t0 dt y, kernel (fun t y => Some (system t y)) t0 (t0 + dt) y0 = Some ((-3)%Z, y) ->
    (forall a b z, kernel (fun _ _ => None) a b z = None) ->
    radau_integrate kernel (fun _ _ => None) system y0 t0 dt = Undefined.
Proof.
  intros kernel system y0 t0 dt y E N. unfold radau_integrate.
  change (radau_rhs (fun _ _ => None) system UserData) with (fun t y => Some (system t y)). rewrite E. cbn -[Rdiv Rplus].
  change (radau_rhs (fun _ _ => None) system SystemObject) with (fun (_ : R) (_ : vec) => @None vec). rewrite N. reflexivity.
Qed.

Print Assumptions C91_retry_undefined_refuted.

Example C91_retry_example : example_kernel (-3) (fun t y => Some (example_system t y)) 0 (0 + 1) [3] = Some ((-3)%Z, [3 + (0 + 1 - 0) * 1]) /\
  (forall a b z, example_kernel (-3) (fun _ _ => None) a b z = None).
Proof. split; reflexivity. Qed.

(** C91 (retry): apart from that the idea of the retry is right if the time starts at zero, the equation does not depend on time and the
    vector is left alone by the failing call: two half steps are a whole step *)
Theorem C91_retry_autonomous :
  forall kernel system phi y0 dt, is_flow phi -> autonomous phi -> 0 < dt ->
    kernel (fun t y => Some (system t y)) 0 (0 + dt) y0 = Some ((-3)%Z, y0) ->
    (forall y, kernel (fun t y => Some (system t y)) 0 ((0 + dt) / 2) y = Some (1%Z, phi 0 ((0 + dt) / 2) y)) ->
    radau_integrate kernel (fun t y => Some (system t y)) system y0 0 dt = Returned (phi 0 dt y0).
Proof.
  intros kernel system phi y0 dt [_ F] A P E H. unfold radau_integrate.
  change (radau_rhs (fun t y => Some (system t y)) system UserData) with (fun t y => Some (system t y)).
  change (radau_rhs (fun t y => Some (system t y)) system SystemObject) with (fun t y => Some (system t y)).
  rewrite E. cbn -[Rdiv Rplus]. rewrite H. cbn -[Rdiv Rplus]. rewrite H. cbn -[Rdiv Rplus]. f_equal.
  rewrite <- (F 0 ((0 + dt) / 2) dt y0). rewrite <- (A 0 ((0 + dt) / 2) ((0 + dt) / 2)).
  f_equal; field.
Qed.

Print Assumptions C91_retry_autonomous.

(** the flow of y' = 1 *)
Definition example_flow : flow := fun a b y => map (fun x => x + (b - a)) y.
Example C91_flow_example : is_flow example_flow /\ autonomous example_flow.
Proof.
  unfold is_flow, autonomous, example_flow. split; [split|].
  - intros a y. rewrite <- (map_id y) at 2. apply map_ext. intros x. lra.
  - intros a b c y. rewrite map_map. apply map_ext. intros x. lra.
  - intros a b s y. apply map_ext. intros x. lra.
Qed.

(** C91 (retry), refuted: for another initial time, or if the failing call advanced the vector, the result is wrong even if the wrong pointer
    had no consequences: both halves end at (t0 + dt) / 2 *)
Theorem C91_retry_time_refuted :
  exists system phi kernel y0 t0 dt, is_flow phi /\ autonomous phi /\ 0 < dt /\
    kernel (fun t y => Some (system t y)) t0 (t0 + dt) y0 = Some ((-3)%Z, y0) /\
    (forall y, kernel (fun t y => Some (system t y)) t0 ((t0 + dt) / 2) y = Some (1%Z, phi t0 ((t0 + dt) / 2) y)) /\
    exists y, radau_integrate kernel (fun t y => Some (system t y)) system y0 t0 dt = Returned y /\ y <> phi t0 (t0 + dt) y0.
Proof.
  set (kernel := fun (_ : R -> vec -> option vec) a b y => if Rlt_dec (b - a) 1 then Some (1%Z, example_flow a b y) else Some ((-3)%Z, y)).
  exists example_system, example_flow, kernel, [0], 1, 1. split; [apply C91_flow_example|]. split; [apply C91_flow_example|]. split; [lra|].
  assert (kernel (fun t y => Some (example_system t y)) 1 (1 + 1) [0] = Some ((-3)%Z, [0])) as E1.
  { unfold kernel. destruct (Rlt_dec _ _); [lra|reflexivity]. }
  assert (forall y, kernel (fun t y => Some (example_system t y)) 1 ((1 + 1) / 2) y = Some (1%Z, example_flow 1 ((1 + 1) / 2) y)) as E2.
  { intros y. unfold kernel. destruct (Rlt_dec _ _); [reflexivity|lra]. }
  split; [exact E1|]. split; [exact E2|]. eexists. split.
  - unfold radau_integrate. change (radau_rhs (fun t y => Some (example_system t y)) example_system UserData) with (fun t y => Some (example_system t y)).
    change (radau_rhs (fun t y => Some (example_system t y)) example_system SystemObject) with (fun t y => Some (example_system t y)).
    rewrite E1. cbn -[Rdiv Rplus kernel example_flow]. rewrite E2. cbn -[Rdiv Rplus kernel example_flow]. rewrite E2. cbn -[Rdiv Rplus kernel example_flow]. reflexivity.
  - unfold example_flow. cbn [map]. intros E. injection E as E. lra.
Qed.

Print Assumptions C91_retry_time_refuted.

(** C91 (CVODE with feedback): if every step follows the solution and makes progress, the loop ends, the feedback sees the solution at increasing
    times, the last call is the first one at or after the end, and its state is the result *)
Theorem C91_cvode_feedback :
  forall memory (cvode : cvode_kernel memory) init (phi : flow) (time : memory -> R) y0 t0 dt delta, is_flow phi -> 0 < dt -> 0 < delta ->
    time (init t0 y0) = t0 ->
    (forall tend mem, let '(_, t', y', mem') := cvode true tend mem in time mem' = t' /\ time mem + delta <= t' /\ y' = phi t0 t' y0) ->
    exists fuel y calls t, cvode_integrate_feedback memory fuel cvode init y0 t0 dt = Some (y, calls ++ [(t, y)]) /\
      t0 + dt <= t /\ y = phi t0 t y0 /\
      (forall c, In c (calls ++ [(t, y)]) -> snd c = phi t0 (fst c) y0) /\
      (forall c, In c calls -> t0 < fst c < t0 + dt) /\
      (forall i c d, nth_error (calls ++ [(t, y)]) i = Some c -> nth_error (calls ++ [(t, y)]) (S i) = Some d -> fst c < fst d).
Proof.
  intros memory cvode init phi time y0 t0 dt delta [F0 F] P D I H. unfold cvode_integrate_feedback. set (tend := t0 + dt).
  assert (forall n mem y calls, t0 <= time mem < tend -> tend <= time mem + INR n * delta ->
    (forall c, In c calls -> snd c = phi t0 (fst c) y0 /\ t0 < fst c <= time mem) ->
    (forall i c d, nth_error calls i = Some c -> nth_error calls (S i) = Some d -> fst c < fst d) ->
    exists y' calls' t, cvode_loop memory n cvode tend (time mem) y mem calls = Some (y', calls' ++ [(t, y')]) /\
      tend <= t /\ y' = phi t0 t y0 /\ (forall c, In c (calls' ++ [(t, y')]) -> snd c = phi t0 (fst c) y0) /\
      (forall c, In c calls' -> t0 < fst c < tend) /\
      (forall i c d, nth_error (calls' ++ [(t, y')]) i = Some c -> nth_error (calls' ++ [(t, y')]) (S i) = Some d -> fst c < fst d)) as L.
  { induction n as [|n IH]; intros mem y calls Ht Hn HC HI.
    - cbn [INR] in Hn. lra.
    - cbn [cvode_loop]. destruct (Rlt_dec (time mem) tend); [|lra]. specialize (H tend mem).
      destruct (cvode true tend mem) as [[[flag t'] y'] mem']. destruct H as (H1 & H2 & H3).
      assert (forall i c d, nth_error (calls ++ [(t', y')]) i = Some c -> nth_error (calls ++ [(t', y')]) (S i) = Some d -> fst c < fst d) as HI'.
      { intros i c d Ei Ed. destruct (Nat.lt_trichotomy (S i) (length calls)) as [Q|[Q|Q]].
        - rewrite nth_error_app1 in Ei, Ed by lia. apply (HI i c d); assumption.
        - rewrite nth_error_app1 in Ei by lia. rewrite nth_error_app2 in Ed by lia. replace (S i - length calls)%nat with O in Ed by lia.
          injection Ed as <-. cbn [fst]. destruct (HC c (nth_error_In _ _ Ei)). lra.
        - rewrite nth_error_app2 in Ed by lia. destruct (S i - length calls)%nat as [|[|k]] eqn:Z; [lia|discriminate|discriminate]. }
      destruct (Rlt_dec t' tend) as [G|G].
      + rewrite <- H1. apply (IH mem' y' (calls ++ [(time mem', y')])).
        * rewrite H1. lra.
        * rewrite S_INR in Hn. rewrite H1. lra.
        * intros c K. apply in_app_or in K. destruct K as [K|[<- |[]]]; [destruct (HC c K); split; [assumption|lra]|].
          cbn [fst snd]. rewrite H1. split; [exact H3|lra].
        * rewrite H1. exact HI'.
      + exists y', calls, t'. assert (cvode_loop memory n cvode tend t' y' mem' (calls ++ [(t', y')]) = Some (y', calls ++ [(t', y')])) as E
          by (destruct n; cbn [cvode_loop]; destruct (Rlt_dec t' tend); try lra; reflexivity).
        split; [exact E|]. split; [lra|]. split; [exact H3|]. split; [|split; [|exact HI']].
        * intros c K. apply in_app_or in K. destruct K as [K|[<- |[]]]; [apply HC, K|exact H3].
        * intros c K. destruct (HC c K) as [_ [K1 K2]]. split; [exact K1|apply Rle_lt_trans with (time mem); [exact K2|apply Ht]]. }
  destruct (archimed (dt / delta)) as [A _]. set (n := Z.to_nat (up (dt / delta))).
  assert (dt / delta <= INR n) as Hn.
  { unfold n. assert (0 < dt / delta) by (apply Rdiv_lt_0_compat; lra). rewrite INR_IZR_INZ, Z2Nat.id; [lra|]. apply le_IZR. lra. }
  assert (dt <= INR n * delta).
  { apply (Rmult_le_compat_r delta) in Hn; [|lra]. replace (dt / delta * delta) with dt in Hn by (field; lra). exact Hn. }
  clearbody n. destruct (L n (init t0 y0) y0 []) as (y & calls & t & E & R).
  - rewrite I. unfold tend. split; lra.
  - rewrite I. unfold tend. lra.
  - intros c [].
  - intros [|i]; discriminate.
  - exists n, y, calls, t. rewrite I in E. split; [exact E|]. exact R.
Qed.

Print Assumptions C91_cvode_feedback.

(** steps of 2/5 over the interval [0, 1]; the memory is the time *)
Definition example_cvode : cvode_kernel R := fun _ _ t => (0%Z, t + 2 / 5, example_flow 0 (t + 2 / 5) [7], t + 2 / 5).
Example C91_cvode_example : is_flow example_flow /\
  (forall tend mem, let '(_, t', y', mem') := example_cvode true tend mem in mem' = t' /\ mem + 2 / 5 <= t' /\ y' = example_flow 0 t' [7]) /\
  exists y calls, cvode_integrate_feedback R 3 example_cvode (fun t _ => t) [7] 0 1 = Some (y, calls) /\ length calls = 3%nat.
Proof.
  split; [apply C91_flow_example|]. split.
  - intros tend mem. cbn -[Rdiv Rplus]. split; [reflexivity|]. split; [lra|reflexivity].
  - unfold cvode_integrate_feedback. do 2 eexists. split.
    + cbn [cvode_loop example_cvode]. destruct (Rlt_dec 0 (0 + 1)); [|lra]. destruct (Rlt_dec (0 + 2 / 5) (0 + 1)); [|lra].
      destruct (Rlt_dec (0 + 2 / 5 + 2 / 5) (0 + 1)); [|lra]. destruct (Rlt_dec (0 + 2 / 5 + 2 / 5 + 2 / 5) (0 + 1)); [lra|reflexivity].
    + reflexivity.
Qed.

(** C91 (CVODE end), refuted: with feedback the result is not the state at t0 + dt but that of the first step beyond *)
Theorem C91_cvode_overshoot_refuted :
  exists y calls, cvode_integrate_feedback R 3 example_cvode (fun t _ => t) [7] 0 1 = Some (y, calls) /\ y <> example_flow 0 (0 + 1) [7].
Proof.
  unfold cvode_integrate_feedback. do 2 eexists. split.
  - cbn [cvode_loop example_cvode]. destruct (Rlt_dec 0 (0 + 1)); [|lra]. destruct (Rlt_dec (0 + 2 / 5) (0 + 1)); [|lra].
    destruct (Rlt_dec (0 + 2 / 5 + 2 / 5) (0 + 1)); [|lra]. destruct (Rlt_dec (0 + 2 / 5 + 2 / 5 + 2 / 5) (0 + 1)); [lra|reflexivity].
  - unfold example_flow. cbn [map]. intros E. injection E as E. lra.
Qed.

Print Assumptions C91_cvode_overshoot_refuted.

(** C91 (CVODE errors), refuted: failures are not reported.  Whatever code CVODE returns, the call without feedback returns normally with the vector
    as it was left; and if the step with feedback fails and makes no progress, the loop never ends *)
Theorem C91_cvode_errors_refuted :
  (forall memory init y0 t0 dt code t y mem, cvode_integrate memory (fun _ _ _ => (code, t, y, mem)) init y0 t0 dt = y) /\
  (forall memory (cvode : cvode_kernel memory) init y0 t0 dt fuel, 0 < dt ->
     (forall tend mem, snd (fst (fst (cvode true tend mem))) = t0) ->
     cvode_integrate_feedback memory fuel cvode init y0 t0 dt = None).
Proof.
  split; [reflexivity|]. intros memory cvode init y0 t0 dt fuel P H. unfold cvode_integrate_feedback.
  generalize (init t0 y0) as mem. generalize (@nil (R * vec)) as calls. generalize y0 as y. induction fuel as [|n IH]; intros y calls mem; cbn [cvode_loop].
  - destruct (Rlt_dec t0 (t0 + dt)); [reflexivity|lra].
  - destruct (Rlt_dec t0 (t0 + dt)); [|lra]. specialize (H (t0 + dt) mem). destruct (cvode true (t0 + dt) mem) as [[[flag t'] y'] mem']. cbn [fst snd] in H. subst t'. apply IH.
Qed.

Print Assumptions C91_cvode_errors_refuted.

(** C91 (CVODE without feedback): if CVODE, asked for the solution at a time, succeeds and starts from the given initial values, integrate returns
    the solution at t0 + dt *)
Theorem C91_cvode_end_time :
  forall memory (cvode : cvode_kernel memory) init (phi : flow) (start : memory -> R * vec) y0 t0 dt, is_flow phi ->
    start (init t0 y0) = (t0, y0) ->
    (forall tend mem, let '(_, t', y', _) := cvode false tend mem in t' = tend /\ y' = phi (fst (start mem)) tend (snd (start mem))) ->
    cvode_integrate memory cvode init y0 t0 dt = phi t0 (t0 + dt) y0.
Proof.
  intros memory cvode init phi start y0 t0 dt _ I H. unfold cvode_integrate. specialize (H (t0 + dt) (init t0 y0)). rewrite I in H. cbn [fst snd] in H.
  destruct (cvode false (t0 + dt) (init t0 y0)) as [[[code t'] y'] mem']. apply H.
Qed.

Print Assumptions C91_cvode_end_time.

(** y' = 1 with memory (time, vector) *)
Example C91_cvode_end_time_example :
  let start (m : R * vec) := m in
  let cvode (_ : bool) tend (m : R * vec) := (0%Z, tend, map (fun x => x + (tend - fst m)) (snd m), m) in
  let phi (a b : R) (y : list R) := map (fun x => x + (b - a)) y in
  start (2, [7]) = (2, [7]) /\ is_flow phi /\
  (forall tend mem, let '(_, t', y', _) := cvode false tend mem in t' = tend /\ y' = phi (fst (start mem)) tend (snd (start mem))).
Proof.
  cbv zeta. split; [reflexivity|]. split; [split|].
  - intros a y. rewrite <- (map_id y) at 2. apply map_ext. intro x. ring.
  - intros a b c y. rewrite map_map. apply map_ext. intro x. ring.
  - intros tend mem. split; reflexivity.
Qed.
