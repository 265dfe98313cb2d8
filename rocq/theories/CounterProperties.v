(** Properties C48 and C49: counters and timers. *)
From Coq Require Import String List ZArith Reals Lia Lra Bool Permutation.
From Verif Require Import CounterModel CounterSpec CounterProofs.
Import ListNotations.
Local Open Scope Z_scope.

(** * C48: counter statistics *)

(** After every sequence of additions and resets the statistics are those of the values added since the last
    reset: number, sum, least and greatest value, mean (with count * mean = value and min <= mean <= max),
    variance (the mean of the squared deviations, non-negative, zero iff all values agree) and its root. *)
Theorem C48_statistics : forall calls, let c := run_calls calls in let l := since_reset calls in
  get_count c = length l /\ get_value c = fold_right Z.add 0 l /\
  (l <> [] -> is_least l (get_min c) /\ is_greatest l (get_max c) /\ is_mean (map IZR l) (get_mean c) /\
     (INR (get_count c) * get_mean c = IZR (get_value c))%R /\
     (IZR (get_min c) <= get_mean c <= IZR (get_max c))%R /\
     is_mean (map (fun x => (IZR x - get_mean c) ^ 2)%R l) (get_variance c)) /\
  (l = [] -> get_min c = 0 /\ get_max c = 0 /\ get_mean c = 0%R /\ get_variance c = 0%R) /\
  (0 <= get_variance c)%R /\ (get_variance c = 0%R <-> forall x y, In x l -> In y l -> x = y) /\
  (0 <= get_stddev c)%R /\ (get_stddev c * get_stddev c = get_variance c)%R.
Proof.
  intros calls c l.
  assert (E : c = l).
  { unfold c, l, run_calls. rewrite run_calls_from. destruct (existsb _ calls); reflexivity. }
  rewrite E. clearbody l. clear E c.
  destruct (variance_ll l) as (V1 & V2 & V3). fold (get_variance l) in V1, V2, V3.
  split; [reflexivity|]. split; [apply fold_add_right|]. split.
  - intros N. split; [apply get_min_spec, N|]. split; [apply get_max_spec, N|].
    pose proof (mean_spec_ll l N) as M. split; [exact M|]. split.
    + unfold is_mean in M. rewrite map_length in M. unfold get_count, get_value, get_mean. rewrite M, fold_add_right, IZR_sum. reflexivity.
    + split; [|apply V3, N]. apply (mean_bounds (map IZR l)); [destruct l; [congruence|discriminate]|exact M|].
      intros x Hx. apply in_map_iff in Hx as (z & <- & Hz).
      destruct (get_min_spec l N) as [_ A]. destruct (get_max_spec l N) as [_ B]. split; apply IZR_le; auto.
  - split.
    + intros ->. cbn. split; [reflexivity|]. split; [reflexivity|]. split; reflexivity.
    + split; [exact V1|]. split; [exact V2|]. split; [apply sqrt_pos|]. apply sqrt_sqrt, V1.
Qed.
Print Assumptions C48_statistics.

(** The order of the additions does not matter. *)
Theorem C48_order : forall c c', Permutation c c' ->
  get_value c = get_value c' /\ get_count c = get_count c' /\ get_min c = get_min c' /\ get_max c = get_max c' /\
  get_mean c = get_mean c' /\ get_variance c = get_variance c' /\ get_stddev c = get_stddev c'.
Proof. exact permuted. Qed.
Print Assumptions C48_order.

(** Statistics over all processes: if every process has recorded something, the gathered minimum and maximum
    are those of all values; if they all have recorded the same number of values the gathered mean is the mean
    of all values.  Missing: processes without values, unequal counts, the count and the variance. *)
Theorem C48_gather_partial : forall root ranks, ranks <> [] -> (forall c, In c ranks -> c <> []) ->
  exists r, gather_statistics root ranks = Some r /\
    is_least (concat ranks) (r_min r) /\ is_greatest (concat ranks) (r_max r) /\
    (forall k, (forall c, In c ranks -> length c = k) -> is_mean (map IZR (concat ranks)) (r_mean r)).
Proof.
  intros root ranks N H. destruct (gather_min_max root ranks H N) as (r & A & B & C & D & _). exists r.
  split; [exact A|]. split; [exact B|]. split; [exact C|]. intros k K. rewrite D. apply (gather_mean k); [|exact K|exact N].
  destruct ranks as [|c cs]; [congruence|]. rewrite <- (K c (or_introl eq_refl)).
  specialize (H c (or_introl eq_refl)). destruct c; [congruence|cbn; lia].
Qed.
Print Assumptions C48_gather_partial.

(** The gathered count is the root's, whatever the others have recorded; a process without values makes the
    gathered minimum of positive values 0; with unequal counts the gathered mean is not the mean; values which
    differ only within processes give variance 0. *)
Theorem C48_gather_refuted :
  (forall root ranks r, gather_statistics root ranks = Some r -> r_count r = length root) /\
  (forall root c cs, (forall x, In x (c ++ concat cs) -> 0 < x) ->
     exists r, gather_statistics root (c :: [] :: cs) = Some r /\ r_min r = 0) /\
  (exists r, gather_statistics [1] [[1]; [3; 3; 3]] = Some r /\ ~ is_mean (map IZR [1; 3; 3; 3]) (r_mean r)) /\
  (exists r, gather_statistics [1; 3] [[1; 3]; [1; 3]] = Some r /\ r_variance r = 0%R).
Proof.
  split; [|split; [|split]].
  - intros root [|c cs] r E; [discriminate|]. cbn in E. injection E as <-. reflexivity.
  - intros root c cs H. eexists. split; [reflexivity|]. cbn [r_min map].
    match goal with |- min_element ?a ?l = 0 => pose proof (min_element_spec l a) as [A B] end.
    match goal with |- ?m = 0 => assert (m <= 0); [|assert (0 <= m); [|lia]] end.
    + apply B. right. left. reflexivity.
    + assert (P : forall d, (forall x, In x d -> 0 < x) -> 0 <= get_min d).
      { intros d Hd. destruct d as [|x d]; [cbn; lia|]. assert (N : x :: d <> []) by discriminate.
        specialize (Hd _ (proj1 (get_min_spec _ N))). lia. }
      destruct A as [A|[A|A]].
      * rewrite <- A. apply P. intros x Hx. apply H. apply in_or_app. left. assumption.
      * rewrite <- A. cbn. lia.
      * apply in_map_iff in A as (d & A & Hd). rewrite <- A. apply P. intros x Hx. apply H. apply in_or_app. right.
        apply in_concat. exists d. auto.
  - eexists. split; [reflexivity|]. cbn. unfold is_mean. cbn. lra.
  - eexists. split; [reflexivity|]. cbn [r_variance map]. unfold calculate_variance_d, sq_sum, calculate_mean_d, get_mean, calculate_mean_ll. cbn. lra.
Qed.
Print Assumptions C48_gather_refuted.

Example C48_example : let calls := [Add 9; Reset; Add 2; Add 4; Add 6] in
  since_reset calls = [2; 4; 6] /\ get_value (run_calls calls) = 12 /\ get_min (run_calls calls) = 2 /\ get_max (run_calls calls) = 6 /\
  get_mean (run_calls calls) = 4%R /\ get_variance (run_calls calls) = (8 / 3)%R /\ Permutation [2; 4; 6] [6; 2; 4].
Proof.
  cbn. split; [reflexivity|]. split; [reflexivity|]. split; [reflexivity|]. split; [reflexivity|].
  split; [unfold get_mean; cbn; lra|]. split.
  - unfold get_variance, calculate_variance_ll, sq_sum, calculate_mean_ll. cbn. lra.
  - apply Permutation_sym. apply (Permutation_cons_append [2; 4] 6).
Qed.

(** * C49: timers *)

(** Every valid history of creating, moving and destroying timers: what is recorded under a name plus the
    timers still running for it plus the running timers overwritten by a move assignment are exactly the timers
    obtained for it.  So without overwriting and when all timers are gone, every timer has recorded once.
    Every recorded value is the time of a destruction minus the starting time of a timer of that name.
    Missing: assigning to a running timer, see [C49_assignment_refuted]. *)
Theorem C49_recorded_partial : forall es w name, run init es = Some w ->
  (length (recorded w name) + running w name + overwritten init es name = started es name)%nat /\
  (timers w = [] -> overwritten init es name = 0%nat -> length (recorded w name) = started es name) /\
  Forall (fun v => exists id id' now t0, In (Destroy id now) es /\ In (GetTimer id' name t0) es /\ v = now - t0) (recorded w name).
Proof.
  intros es w name E. pose proof (run_count es name init w init_inv E) as C.
  replace (length (recorded init name)) with 0%nat in C by reflexivity. replace (running init name) with 0%nat in C by reflexivity.
  split; [lia|]. split.
  - intros T O. unfold running in C. rewrite T in C. cbn in C. lia.
  - destruct (run_origin es init w [] name init_inv) as (_ & new & A & B); [intros p []|assumption|].
    replace (recorded init name) with (@nil Z) in A by reflexivity. cbn [app] in A, B. rewrite A.
    eapply Forall_impl; [|exact B]. intros v (id & now & t0 & X & (id' & Y) & Z). exists id, id', now, t0. auto.
Qed.
Print Assumptions C49_recorded_partial.

(** Every single event, in every state reached by a history: destroying a timer which is running for a name
    appends exactly one measurement, now minus its starting time; destroying another timer (never started or
    moved from) and every other event record nothing. *)
Theorem C49_event : forall es w e w' name, run init es = Some w -> step w e = Some w' ->
  recorded w' name = recorded w name ++
    match e with
    | Destroy id now => match lookup Nat.eqb id (timers w) with
                        | Some t => if running_for name t then [now - t_start t] else []
                        | None => []
                        end
    | _ => []
    end.
Proof. intros es w e w' name R S. apply (step_recorded w e w' name); [apply (run_inv es init); [apply init_inv|assumption]|assumption]. Qed.
Print Assumptions C49_event.

(** After moving from a timer (construction, or assignment from another one), the source records nothing when
    it is destroyed and the destination measures from the original start. *)
Theorem C49_moved_from : forall es w id from w' t, run init es = Some w -> id <> from ->
  step w (MoveConstruct id from) = Some w' \/ step w (MoveAssign id from) = Some w' ->
  lookup Nat.eqb from (timers w) = Some t ->
  lookup Nat.eqb id (timers w') = Some t /\
  forall now w'' name, step w' (Destroy from now) = Some w'' -> recorded w'' name = recorded w' name.
Proof.
  intros es w id from w' t R N S F.
  assert (I : inv w) by (apply (run_inv es init); [apply init_inv|assumption]).
  assert (I' : inv w') by (destruct S as [S|S]; exact (step_inv w _ w' I S)).
  assert (L : lookup Nat.eqb id (timers w') = Some t /\ lookup Nat.eqb from (timers w') = Some default_timer).
  { assert (NN : lookup Nat.eqb from (timers w) <> None) by congruence.
    destruct S as [S|S]; cbn [step] in S; unfold get_timer in S; rewrite F in S;
      destruct (lookup Nat.eqb id (timers w)) as [u|] eqn:G; try discriminate; injection S as <-; cbn [timers].
    - cbn [lookup]. rewrite Nat.eqb_refl. split; [reflexivity|]. destruct (Nat.eqb_spec id from); [congruence|].
      rewrite lookup_nat_update, Nat.eqb_refl by assumption. reflexivity.
    - assert (NI : lookup Nat.eqb id (update Nat.eqb from default_timer (timers w)) <> None).
      { rewrite lookup_nat_update by assumption. destruct (Nat.eqb from id); congruence. }
      rewrite !lookup_nat_update by assumption. rewrite !Nat.eqb_refl. split; [reflexivity|].
      destruct (Nat.eqb_spec id from); [congruence|reflexivity]. }
  destruct L as [L1 L2]. split; [exact L1|]. intros now w'' name D.
  rewrite (step_recorded w' _ w'' name I' D). unfold get_timer. rewrite L2. cbn. apply app_nil_r.
Qed.
Print Assumptions C49_moved_from.

(** Assigning to a running timer loses its measurement: for all times, two timers of a name are obtained, one
    is moved onto the other, all are destroyed, and only one measurement is recorded. *)
Theorem C49_assignment_refuted : forall name t1 t2 t3 t4, exists es w,
  es = [GetTimer 0 name t1; GetTimer 1 name t2; MoveAssign 0 1; Destroy 1 t3; Destroy 0 t4] /\
  run init es = Some w /\ timers w = [] /\ started es name = 2%nat /\ recorded w name = [t4 - t2].
Proof.
  intros name t1 t2 t3 t4. eexists. exists (mkWorld [(name, [t4 - t2])] []). split; [reflexivity|].
  split; [|split; [reflexivity|split]].
  - assert (R : String.eqb name name = true) by apply String.eqb_refl.
    unfold run, step, get_timer, init, registry_get, submit. cbn -[String.eqb Z.sub]. rewrite R. cbn -[String.eqb Z.sub]. rewrite R. cbn -[String.eqb Z.sub].
    rewrite ?R. cbn -[String.eqb Z.sub]. rewrite ?R. reflexivity.
  - unfold started. cbn [filter]. rewrite String.eqb_refl. reflexivity.
  - unfold recorded. cbn [counters lookup]. rewrite String.eqb_refl. reflexivity.
Qed.
Print Assumptions C49_assignment_refuted.

(** A timer started at 3, moved twice and destroyed at 10. *)
Example C49_example : exists w,
  run init [GetTimer 0 "a"%string 3; DefaultTimer 1; MoveAssign 1 0; MoveConstruct 2 1; Destroy 0 5; Destroy 1 6; Destroy 2 10] = Some w /\
  recorded w "a"%string = [7] /\ timers w = [] /\
  overwritten init [GetTimer 0 "a"%string 3; DefaultTimer 1; MoveAssign 1 0; MoveConstruct 2 1; Destroy 0 5; Destroy 1 6; Destroy 2 10] "a"%string = 0%nat.
Proof. eexists. split; [reflexivity|]. split; [reflexivity|]. split; reflexivity. Qed.
