(** C97: level integrators with source terms. *)
From Coq Require Import List Reals Bool Lra Lia Arith.
From Verif Require Import SplitModel SplitSpec SplitProofs SourceModel SourceSpec SourceProofs.
Import ListNotations.
Local Open Scope R_scope.

(** C97: in a successful step every source term and the system are advanced by dt in total, whatever splitting methods are used, by
    steps between 0 and dt; with symmetric methods the sequence of calls is a palindrome. *)
Theorem C97_advance : forall (W : Type) (sources : list (solver W * method)) (system : solver W) dt w log w',
  s_advance (integrator (observe_from 0 sources) (observe (length sources) system)) dt ([], w) = ((log, w'), None) ->
  (forall i, (i <= length sources)%nat -> time_in i log = dt) /\
  (0 <= dt -> forall c, In c log -> 0 <= how_long c <= dt) /\
  (forall c, In c log -> (who c <= length sources)%nat) /\
  (forallb is_symmetric (map snd sources) = true -> rev (plan log) = plan log).
Proof.
  intros W sources system dt w log w' H. rewrite observed_run in H. assert (B := run_bounded sources system dt).
  apply run_logged in H; [|exact B]. destruct H as (log' & Hl & _ & [(_ & Hp & Hok)|(e & log0 & i' & d' & rest & Hr & _)]); [|discriminate].
  cbn [app] in Hl. subst log'.
  assert (IN : forall c, In c log -> In (who c, how_long c) (nplan 0 (map snd sources) dt)).
  { intros c Hc. rewrite <- Hp. unfold plan. apply in_map_iff. exists c. split; [reflexivity | exact Hc]. }
  split; [|split; [|split]].
  - intros i Hi. rewrite ptime_plan, Hp. apply nplan_time. rewrite map_length. lia.
  - intros Hd c Hc. assert (P := nplan_pieces (map snd sources) 0 dt dt (conj Hd (Rle_refl dt))). rewrite Forall_forall in P. apply (P _ (IN c Hc)).
  - intros c Hc. unfold bounded in B. rewrite Forall_forall in B. specialize (B _ (IN c Hc)). rewrite members_length in B. cbn [fst] in B. lia.
  - intro S. rewrite Hp. apply nplan_rev. exact S.
Qed.
Print Assumptions C97_advance.

(** C97: for given splitting methods there is one sequence of calls; a step either makes all of them without failure or stops directly
    after the first failing call and returns its error.  The data are those after exactly the calls made. *)
Theorem C97_first_failure : forall (methods : list method) (dt : R), exists full : list (nat * R),
  forall (W : Type) (sources : list (solver W * method)) (system : solver W) w log w' r, map snd sources = methods ->
  s_advance (integrator (observe_from 0 sources) (observe (length sources) system)) dt ([], w) = ((log, w'), r) ->
  s_advance (integrator sources system) dt w = (w', r) /\
  w' = replay (map s_advance (members sources system)) (plan log) w /\
  match r with
  | None => plan log = full /\ (forall c, In c log -> outcome c = None)
  | Some e => exists before final rest, log = before ++ [final] /\ outcome final = Some e /\ (forall c, In c before -> outcome c = None) /\ full = plan log ++ rest
  end.
Proof.
  intros methods dt. exists (nplan 0 methods dt). intros W sources system w log w' r <- H. rewrite observed_run in H.
  split.
  { rewrite (integrator_run _ _ []). cbn [app length].
    assert (G := run_logged_same (map s_advance (members sources system)) _ (run_bounded sources system dt) [] w). rewrite H in G. exact G. }
  apply run_logged in H; [|apply run_bounded]. destruct H as (log' & Hl & Hw & Hcase). cbn [app] in Hl. subst log'. split; [congruence|].
  destruct Hcase as [(-> & Hp & Hok)|(e & log0 & i' & d' & rest & -> & -> & Hok & Hp)].
  - split; auto. rewrite Forall_forall in Hok. exact Hok.
  - exists log0, (mkCall i' d' (Some e)), rest. rewrite Forall_forall in Hok. repeat split; auto.
Qed.
Print Assumptions C97_first_failure.

(** C97: the stable step is the smallest of the stable steps of all members, so no member is ever called with a step beyond its own
    stable step as long as dt is at most the reported one. *)
Theorem C97_stable_dt : forall (W : Type) (sources : list (solver W * method)) (system : solver W) w,
  (forall s, In s (members sources system) -> s_stable_dt (integrator sources system) w <= s_stable_dt s w) /\
  (exists s, In s (members sources system) /\ s_stable_dt (integrator sources system) w = s_stable_dt s w) /\
  (forall dt log w' r, 0 <= dt <= s_stable_dt (integrator sources system) w ->
     s_advance (integrator (observe_from 0 sources) (observe (length sources) system)) dt ([], w) = ((log, w'), r) ->
     forall c, In c log -> exists s, nth_error (members sources system) (who c) = Some s /\ 0 <= how_long c <= s_stable_dt s w).
Proof.
  intros W sources system w.
  assert (A : forall s, In s (members sources system) -> s_stable_dt (integrator sources system) w <= s_stable_dt s w).
  { unfold members. induction sources as [|[s0 m] l IH]; intros s Hs; cbn [map app fst integrator] in *.
    - destruct Hs as [<- | []]. lra.
    - cbn [with_source s_stable_dt]. destruct (Rlt_dec (s_stable_dt s0 w) (s_stable_dt (integrator l system) w)) as [L|L]; destruct Hs as [<- | Hs]; try lra.
      + specialize (IH s Hs). lra.
      + specialize (IH s Hs). lra. }
  split; [exact A|]. split.
  - clear A. unfold members. induction sources as [|[s0 m] l IH]; cbn [map app fst integrator].
    + exists system. split; [left; reflexivity | reflexivity].
    + cbn [with_source s_stable_dt]. destruct (Rlt_dec (s_stable_dt s0 w) (s_stable_dt (integrator l system) w)) as [L|L].
      * exists s0. split; [left; reflexivity | reflexivity].
      * destruct IH as [s [I E]]. exists s. split; [right; exact I | exact E].
  - intros dt log w' r Hd H c Hc. rewrite observed_run in H. assert (B := run_bounded sources system dt).
    apply run_logged in H; [|exact B]. destruct H as (log' & Hl & _ & Hcase). cbn [app] in Hl. subst log'.
    assert (IN : In (who c, how_long c) (nplan 0 (map snd sources) dt)).
    { assert (I : In (who c, how_long c) (plan log)) by (unfold plan; apply in_map_iff; exists c; split; [reflexivity | exact Hc]).
      destruct Hcase as [(_ & Hp & _)|(e & log0 & i' & d' & rest & _ & _ & _ & Hp)]; rewrite Hp in *; [exact I | apply in_or_app; left; exact I]. }
    unfold bounded in B. rewrite Forall_forall in B. specialize (B _ IN). rewrite map_length in B. cbn [fst] in B.
    destruct (nth_error (members sources system) (who c)) as [s|] eqn:E; [|apply nth_error_None in E; lia].
    exists s. split; [reflexivity|].
    assert (P := nplan_pieces (map snd sources) 0 dt dt ltac:(lra)). rewrite Forall_forall in P. specialize (P _ IN). cbn [snd] in P.
    specialize (A s (nth_error_In _ _ E)). lra.
Qed.
Print Assumptions C97_stable_dt.

(** C97: the hooks around a level step: before the step the hooks are called from the system outwards, afterwards from the outermost
    source term inwards, each once with the step size; the result is that of the system. *)
Theorem C97_level_hooks : forall (W : Type) (sources : list (solver W * method)) (system : solver W) dt w,
  has_pre_level system = true -> has_post_level system = true ->
  let whole := integrator (observe_hooks_from 0 sources) (observe_hooks (length sources) system) in
  (exists f w', s_pre_level whole = Some f /\
     f dt ([], w) = (map (fun k => PreLevel k dt) (rev (having has_pre_level 0 (members sources system))), w')) /\
  (exists f l w' r, s_post_level whole = Some f /\ f dt ([], w) = ((l, w'), r) /\
     map whose l = having has_post_level 0 (members sources system) /\ (forall e, In e l -> exists k q, e = PostLevel k dt q) /\
     last l (PreHierarchy 0) = PostLevel (length sources) dt r).
Proof.
  intros W sources system dt w H1 H2. cbv zeta. split.
  - destruct (pre_level_log sources system 0 dt [] w H1) as [f [w' [E1 E2]]]. exists f, w'. split; [exact E1 | exact E2].
  - destruct (post_level_log sources system 0 dt [] w H2) as [f [l' [w' [r [E1 [E2 E3]]]]]]. exists f, l', w', r. split; [exact E1|]. split; [exact E2 | exact E3].
Qed.
Print Assumptions C97_level_hooks.

(** C97: the same for the hooks around a step of the hierarchy. *)
Theorem C97_hierarchy_hooks : forall (W : Type) (sources : list (solver W * method)) (system : solver W) dt w,
  let whole := integrator (observe_hooks_from 0 sources) (observe_hooks (length sources) system) in
  (exists w', call_if_detected (s_pre_hierarchy whole) ([], w) = (map PreHierarchy (rev (having has_pre_hierarchy 0 (members sources system))), w')) /\
  (exists l w', call_post (s_post_hierarchy whole) dt ([], w) = (l, w') /\ map whose l = having has_post_hierarchy 0 (members sources system) /\
     (forall e, In e l -> exists k, e = PostHierarchy k (Some dt) \/ e = PostHierarchy k None)).
Proof.
  intros W sources system dt w. cbv zeta. split.
  - destruct (pre_hierarchy_log sources system 0 [] w) as [w' E]. exists w'. exact E.
  - destruct (post_hierarchy_log sources system 0 dt [] w) as [l' [w' E]]. exists l', w'. exact E.
Qed.
Print Assumptions C97_hierarchy_hooks.

(** C97 refuted: if the hook of a source term after a level step fails, the integrator reports success. *)
Theorem C97_post_failure_refuted : forall (W : Type) (source system : solver W) (m : method) f g dt w e,
  s_post_level source = Some f -> s_post_level system = Some g -> snd (f dt w) = Some e -> snd (g dt (fst (f dt w))) = None ->
  exists h, s_post_level (integrator [(source, m)] system) = Some h /\ snd (h dt w) = None.
Proof.
  intros W source system m f g dt w e Hf Hg H1 H2. cbn [integrator with_source s_post_level]. rewrite Hf, Hg. eexists. split; [reflexivity|].
  cbv beta zeta. exact H2.
Qed.
Print Assumptions C97_post_failure_refuted.

(** Two source terms around a system that count their calls; the second source term fails in its second call *)
Definition counter : solver nat :=
  {| s_advance := fun _ n => (S n, None); s_stable_dt := fun _ => 2; s_pre_hierarchy := Some S; s_post_hierarchy := PostPlain S;
     s_pre_level := Some (fun _ n => S n); s_post_level := Some (fun _ n => (S n, None)) |}.
Definition fragile : solver nat :=
  {| s_advance := fun dt n => if Nat.leb 3 n then (n, Some (mkTooLarge (/ 2 * dt) 1)) else (S n, None); s_stable_dt := fun _ => 1;
     s_pre_hierarchy := None; s_post_hierarchy := NoPost; s_pre_level := None;
     s_post_level := Some (fun dt n => (n, Some (mkTooLarge (/ 2 * dt) 1))) |}.
Example C97_example :
  s_advance (integrator [(counter, StrangLumped); (counter, Godunov)] counter) 1 O = (4%nat, None) /\
  s_advance (integrator [(counter, StrangLumped); (fragile, Strang)] counter) 1 O = (4%nat, Some (mkTooLarge (/ 2 * (/ 2 * 1)) 1)) /\
  s_stable_dt (integrator [(counter, Strang); (fragile, Strang)] counter) O = 1.
Proof.
  split; [reflexivity|]. split; [reflexivity|]. cbn [integrator with_source s_stable_dt fragile counter].
  destruct (Rlt_dec 1 2) as [_|N]; [|lra]. destruct (Rlt_dec 2 1); [lra | reflexivity].
Qed.
Example C97_hooks_example :
  having has_pre_level 0 (members [(counter, Strang); (fragile, Strang)] counter) = [0; 2]%nat /\
  having has_post_level 0 (members [(counter, Strang); (fragile, Strang)] counter) = [0; 1; 2]%nat /\
  having has_post_hierarchy 0 (members [(counter, Strang); (fragile, Strang)] counter) = [0; 2]%nat.
Proof. repeat split. Qed.
Example C97_post_failure_example : exists h, s_post_level (integrator [(fragile, Strang)] counter) = Some h /\ snd (h 1 O) = None.
Proof. eapply C97_post_failure_refuted; reflexivity. Qed.
