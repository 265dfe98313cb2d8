(** Lemmas for C97. *)
From Coq Require Import List Reals Bool Lra Lia Arith.
From Verif Require Import SplitModel SplitSpec SplitProofs SourceModel SourceSpec.
Import ListNotations.
Local Open Scope R_scope.

Fixpoint nplan (i : nat) (ms : list method) (dt : R) : list (nat * R) :=
  match ms with [] => [(i, dt)] | m :: r => sched2 m dt (fun t => [(i, t)]) (fun t => nplan (S i) r t) end.

Lemma nplan_bounded : forall ms i dt, bounded (i + S (length ms)) (nplan i ms dt).
Proof.
  induction ms as [|m ms IH]; intros i dt; cbn [nplan length].
  - constructor; [cbn; lia | constructor].
  - apply sched2_bounded; intro t.
    + constructor; [cbn; lia | constructor].
    + replace (i + S (S (length ms)))%nat with (S i + S (length ms))%nat by lia. apply IH.
Qed.
Lemma nplan_low : forall ms i j dt, (j < i)%nat -> ptime j (nplan i ms dt) = 0.
Proof.
  induction ms as [|m ms IH]; intros i j dt H; cbn [nplan].
  - cbn. destruct (Nat.eqb_spec i j); [lia | lra].
  - rewrite (ptime_sched2 m j dt _ _ 0 0); [lra | |].
    + intro t. cbn. destruct (Nat.eqb_spec i j); [lia | lra].
    + intro t. rewrite IH by lia. lra.
Qed.
Lemma nplan_time : forall ms i j dt, (i <= j <= i + length ms)%nat -> ptime j (nplan i ms dt) = dt.
Proof.
  induction ms as [|m ms IH]; intros i j dt H; cbn [nplan length] in *.
  - cbn. destruct (Nat.eqb_spec i j); [lra | lia].
  - destruct (Nat.eq_dec i j) as [E|N].
    + subst j. rewrite (ptime_sched2 m i dt _ _ 1 0); [lra | |].
      * intro t. cbn. rewrite Nat.eqb_refl. lra.
      * intro t. rewrite nplan_low by lia. lra.
    + rewrite (ptime_sched2 m j dt _ _ 0 1); [lra | |].
      * intro t. cbn. destruct (Nat.eqb_spec i j); [lia | lra].
      * intro t. rewrite IH by lia. lra.
Qed.
Lemma nplan_pieces : forall ms i dt b, 0 <= dt <= b -> Forall (fun c => 0 <= snd c <= b) (nplan i ms dt).
Proof.
  induction ms as [|m ms IH]; intros i dt b H; cbn [nplan].
  - constructor; [cbn; lra | constructor].
  - apply sched2_pieces; [lra | |].
    + intros t Ht. constructor; [cbn; lra | constructor].
    + intros t Ht. apply IH. lra.
Qed.
Lemma nplan_rev : forall ms i dt, forallb is_symmetric ms = true -> rev (nplan i ms dt) = nplan i ms dt.
Proof.
  induction ms as [|m ms IH]; intros i dt H; cbn [nplan]; [reflexivity|].
  cbn [forallb] in H. apply andb_prop in H. destruct H as [H1 H2]. apply sched2_rev; [exact H1 | reflexivity | intro t; apply IH; exact H2].
Qed.

Lemma integrator_run : forall {W} (sources : list (solver W * method)) (system : solver W) pre dt w,
  s_advance (integrator sources system) dt w =
  run_plan (pre ++ map s_advance (members sources system)) (nplan (length pre) (map snd sources) dt) w.
Proof.
  intros W sources system. induction sources as [|[s m] r IH]; intros pre dt w; cbn [integrator members map nplan app].
  - symmetry. apply run_single. apply nth_error_mid.
  - cbn [with_source s_advance fst snd].
    set (fs := pre ++ s_advance s :: map s_advance (map fst r ++ [system])).
    assert (L : length fs = (length pre + S (S (length (map snd r))))%nat).
    { unfold fs. rewrite app_length. cbn [length]. rewrite map_length, app_length, !map_length. cbn [length]. lia. }
    apply (advance2_run m fs).
    + intro t. rewrite L. constructor; [cbn; lia | constructor].
    + intro t. rewrite L. replace (length pre + S (S (length (map snd r))))%nat with (S (length pre) + S (length (map snd r)))%nat by lia. apply nplan_bounded.
    + intros t x. symmetry. apply run_single. unfold fs. apply nth_error_mid.
    + intros t x. rewrite (IH (pre ++ [s_advance s]) t x). rewrite <- app_assoc. cbn [app]. rewrite app_length. cbn [length].
      replace (length pre + 1)%nat with (S (length pre)) by lia. reflexivity.
Qed.

Lemma observe_members : forall {W} (sources : list (solver W * method)) (system : solver W) i,
  map s_advance (members (observe_from i sources) (observe (i + length sources) system)) = logged_from i (map s_advance (members sources system)).
Proof.
  intros W sources system. unfold members. induction sources as [|[s m] r IH]; intro i.
  - cbn. rewrite Nat.add_0_r. reflexivity.
  - cbn [observe_from map app fst logged_from length]. f_equal. replace (i + S (length r))%nat with (S i + length r)%nat by lia. apply IH.
Qed.
Lemma observe_methods : forall {W} (sources : list (solver W * method)) i, map snd (observe_from i sources) = map snd sources.
Proof. intros W sources. induction sources as [|[s m] r IH]; intro i; [reflexivity|]. cbn [observe_from map snd]. rewrite IH. reflexivity. Qed.

Lemma observed_run : forall {W} (sources : list (solver W * method)) (system : solver W) dt w l,
  s_advance (integrator (observe_from 0 sources) (observe (length sources) system)) dt (l, w) =
  run_plan (logged_from 0 (map s_advance (members sources system))) (nplan 0 (map snd sources) dt) (l, w).
Proof.
  intros W sources system dt w l. rewrite (integrator_run _ _ []). cbn [app length]. rewrite observe_methods.
  assert (E := observe_members sources system 0). cbn [plus] in E. rewrite E. reflexivity.
Qed.
Lemma members_length : forall {W} (sources : list (solver W * method)) (system : solver W), length (map s_advance (members sources system)) = S (length sources).
Proof. intros. unfold members. rewrite map_length, app_length, map_length. cbn. lia. Qed.
Lemma run_bounded : forall {W} (sources : list (solver W * method)) (system : solver W) dt,
  bounded (length (map s_advance (members sources system))) (nplan 0 (map snd sources) dt).
Proof.
  intros W sources system dt. rewrite members_length.
  assert (H := nplan_bounded (map snd sources) 0 dt). rewrite map_length in H. exact H.
Qed.

(** ** hooks *)
Lemma pre_level_log : forall {W} (sources : list (solver W * method)) (system : solver W) i dt l w, has_pre_level system = true ->
  exists f w', s_pre_level (integrator (observe_hooks_from i sources) (observe_hooks (i + length sources) system)) = Some f /\
    f dt (l, w) = (l ++ map (fun k => PreLevel k dt) (rev (having has_pre_level i (members sources system))), w').
Proof.
  intros W sources system. induction sources as [|[s m] r IH]; intros i dt l w H.
  - unfold has_pre_level in H. cbn [observe_hooks_from integrator observe_hooks s_pre_level members map app having rev].
    destruct (s_pre_level system) as [f|] eqn:E; [|discriminate]. eexists. exists (f dt w). split; [reflexivity|].
    unfold has_pre_level. rewrite E. cbn. rewrite Nat.add_0_r. reflexivity.
  - cbn [length]. replace (i + S (length r))%nat with (S i + length r)%nat by lia.
    destruct (IH (S i) dt l w H) as [f [w' [E1 E2]]].
    cbn [observe_hooks_from integrator with_source s_pre_level]. rewrite E1.
    eexists. exists (match s_pre_level s with Some g => g dt w' | None => w' end). split; [reflexivity|]. cbv beta zeta. rewrite E2.
    unfold members. cbn [map fst app having]. fold (members r system). rewrite rev_app_distr, map_app.
    cbn [observe_hooks s_pre_level]. change (has_pre_level s) with (match s_pre_level s with Some _ => true | None => false end). destruct (s_pre_level s) as [g|].
    + cbn [rev map app]. rewrite app_assoc. reflexivity.
    + cbn [rev map app]. rewrite app_nil_r. reflexivity.
Qed.
Lemma post_level_log : forall {W} (sources : list (solver W * method)) (system : solver W) i dt l w, has_post_level system = true ->
  exists f l' w' r, s_post_level (integrator (observe_hooks_from i sources) (observe_hooks (i + length sources) system)) = Some f /\
    f dt (l, w) = ((l ++ l', w'), r) /\ map whose l' = having has_post_level i (members sources system) /\
    (forall e, In e l' -> exists k q, e = PostLevel k dt q) /\ last l' (PreHierarchy 0) = PostLevel (i + length sources) dt r.
Proof.
  intros W sources system. induction sources as [|[s m] r IH]; intros i dt l w H.
  - unfold has_post_level in H. cbn [observe_hooks_from integrator observe_hooks s_post_level members map app having length].
    destruct (s_post_level system) as [f|] eqn:E; [|discriminate].
    unfold has_post_level. rewrite E. destruct (f dt w) as [w' q] eqn:F.
    eexists. exists [PostLevel (i + 0) dt q], w', q. split; [reflexivity|]. cbv beta iota. rewrite F. split; [reflexivity|].
    rewrite Nat.add_0_r. split; [reflexivity|]. split; [|reflexivity].
    intros e [<- | []]. exists i, q. reflexivity.
  - cbn [length]. replace (i + S (length r))%nat with (S i + length r)%nat by lia.
    cbn [observe_hooks_from integrator with_source s_post_level].
    set (w1l := match s_post_level (observe_hooks i s) with Some f => fst (f dt (l, w)) | None => (l, w) end).
    assert (Q : exists l1 w1, w1l = (l ++ l1, w1) /\ map whose l1 = (if has_post_level s then [i] else []) /\ (forall e, In e l1 -> exists k q, e = PostLevel k dt q)).
    { unfold w1l, has_post_level. cbn [observe_hooks s_post_level]. destruct (s_post_level s) as [g|].
      - destruct (g dt w) as [w1 q]. exists [PostLevel i dt q], w1. split; [reflexivity|]. split; [reflexivity|]. intros e [<- | []]. exists i, q. reflexivity.
      - exists [], w. split; [rewrite app_nil_r; reflexivity|]. split; [reflexivity|]. intros e []. }
    destruct Q as [l1 [w1 [Q1 [Q2 Q3]]]].
    destruct (IH (S i) dt (l ++ l1) w1 H) as [f [l' [w' [q [E1 [E2 [E3 [E4 E5]]]]]]]].
    eexists. exists (l1 ++ l'), w', q. split; [reflexivity|]. cbv beta zeta. fold w1l. rewrite Q1, E1, E2.
    split; [rewrite app_assoc; reflexivity|]. split; [rewrite map_app, Q2, E3; reflexivity|].
    split; [intros e I; apply in_app_iff in I; destruct I as [I|I]; [apply Q3 | apply E4]; exact I|].
    destruct l' as [|e0 l'']; [cbn [last] in E5; discriminate|].
    clear -E5. induction l1 as [|a l1 IH1]; [exact E5|]. change (last ((a :: l1) ++ e0 :: l'') (PreHierarchy 0)) with (match l1 ++ e0 :: l'' with [] => a | _ => last (l1 ++ e0 :: l'') (PreHierarchy 0) end).
    destruct (l1 ++ e0 :: l'') eqn:Z; [destruct l1; discriminate | exact IH1].
Qed.

Lemma pre_hierarchy_log : forall {W} (sources : list (solver W * method)) (system : solver W) i l w,
  exists w', call_if_detected (s_pre_hierarchy (integrator (observe_hooks_from i sources) (observe_hooks (i + length sources) system))) (l, w) =
    (l ++ map PreHierarchy (rev (having has_pre_hierarchy i (members sources system))), w').
Proof.
  intros W sources system. induction sources as [|[s m] r IH]; intros i l w.
  - cbn [observe_hooks_from integrator observe_hooks s_pre_hierarchy members map app having]. unfold call_if_detected, has_pre_hierarchy.
    cbn [length]. rewrite Nat.add_0_r. destruct (s_pre_hierarchy system) as [f|].
    + exists (f w). reflexivity.
    + exists w. cbn. rewrite app_nil_r. reflexivity.
  - cbn [length]. replace (i + S (length r))%nat with (S i + length r)%nat by lia.
    destruct (IH (S i) l w) as [w' E].
    cbn [observe_hooks_from integrator with_source s_pre_hierarchy]. unfold call_if_detected at 1. rewrite E.
    unfold members. cbn [map fst app having]. fold (members r system). rewrite rev_app_distr, map_app.
    cbn [observe_hooks s_pre_hierarchy]. change (has_pre_hierarchy s) with (match s_pre_hierarchy s with Some _ => true | None => false end). destruct (s_pre_hierarchy s) as [g|].
    + cbn [call_if_detected rev map app]. eexists. rewrite app_assoc. reflexivity.
    + cbn [call_if_detected rev map app]. eexists. rewrite app_nil_r. reflexivity.
Qed.
Lemma post_hierarchy_log : forall {W} (sources : list (solver W * method)) (system : solver W) i dt l w,
  exists l' w', call_post (s_post_hierarchy (integrator (observe_hooks_from i sources) (observe_hooks (i + length sources) system))) dt (l, w) = (l ++ l', w') /\
    map whose l' = having has_post_hierarchy i (members sources system) /\ (forall e, In e l' -> exists k, e = PostHierarchy k (Some dt) \/ e = PostHierarchy k None).
Proof.
  intros W sources system.
  assert (ONE : forall (s : solver W) i dt l w, exists l' w', call_post (s_post_hierarchy (observe_hooks i s)) dt (l, w) = (l ++ l', w') /\
    map whose l' = (if has_post_hierarchy s then [i] else []) /\ (forall e, In e l' -> exists k, e = PostHierarchy k (Some dt) \/ e = PostHierarchy k None)).
  { intros s i dt l w. unfold has_post_hierarchy. cbn [observe_hooks s_post_hierarchy]. destruct (s_post_hierarchy s) as [|f|f]; cbn [call_post].
    - exists [], w. rewrite app_nil_r. repeat split. intros e [].
    - exists [PostHierarchy i (Some dt)], (f dt w). repeat split. intros e [<- | []]. exists i. left. reflexivity.
    - exists [PostHierarchy i None], (f w). repeat split. intros e [<- | []]. exists i. right. reflexivity. }
  induction sources as [|[s m] r IH]; intros i dt l w.
  - cbn [observe_hooks_from integrator members map app having length]. rewrite Nat.add_0_r, app_nil_r. apply ONE.
  - cbn [length]. replace (i + S (length r))%nat with (S i + length r)%nat by lia.
    destruct (ONE s i dt l w) as [l1 [w1 [A1 [A2 A3]]]]. destruct (IH (S i) dt (l ++ l1) w1) as [l2 [w2 [B1 [B2 B3]]]].
    cbn [observe_hooks_from integrator with_source s_post_hierarchy]. unfold call_post at 1. rewrite A1, B1.
    exists (l1 ++ l2), w2. split; [rewrite app_assoc; reflexivity|]. unfold members. cbn [map fst app having]. rewrite map_app, A2. fold (members r system). rewrite B2.
    split; [reflexivity|]. intros e I. apply in_app_iff in I. destruct I as [I|I]; [apply A3 | apply B3]; exact I.
Qed.
