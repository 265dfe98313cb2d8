(** Proofs for NoSubcycleSolver. *)
From Coq Require Import Reals List Arith Lia Lra.
From Verif Require Import SplitModel SubcycleModel SubcycleSpec SubcycleProofs.
Import ListNotations.
Local Open Scope R_scope.

Section NoSub.
  Context {W : Type}.
  Variable I : Integrator W.

  Lemma forget_finish_nosub : forall l dt x,
    forget (finish_level_nosub (observed I) l dt x) = finish_level_nosub I l dt (snd x).
  Proof.
    intros l dt [lg w]. unfold finish_level_nosub, level_exists. simpl.
    destruct (advance_nonrecursively I l dt (0, 1)%nat w) as [w1 [e|]]; simpl; auto.
    destruct (Nat.ltb (S l) (num_levels I w1)); simpl; destruct l as [|c]; simpl;
      destruct (post_advance_level I _ dt (0, 1)%nat _) as [w5 [e|]]; reflexivity.
  Qed.

  Lemma forget_advance_nosub : forall finer l dt x,
    forget (advance_level_nosub (observed I) finer l dt x) = advance_level_nosub I finer l dt (snd x).
  Proof.
    induction finer as [|f IH]; intros l dt [lg w]; cbn [advance_level_nosub].
    - apply forget_finish_nosub.
    - change (level_exists (observed I) (S l) (pre_advance_level (observed I) l dt (0, 1)%nat (lg, w)))
        with (level_exists I (S l) (pre_advance_level I l dt (0, 1)%nat w)).
      cbn [snd].
      destruct (level_exists I (S l) (pre_advance_level I l dt (0, 1)%nat w)).
      + specialize (IH (S l) dt (reset_coarse_fine_fluxes (observed I) (S l) l
          (pre_advance_level (observed I) l dt (0, 1)%nat (lg, w)))).
        cbn [snd] in IH. simpl in IH |- *. rewrite <- IH.
        destruct (advance_level_nosub (observed I) f (S l) dt _) as [x [e|]].
        * reflexivity.
        * unfold forget at 2; cbn [fst snd]. apply (forget_finish_nosub l dt x).
      + apply forget_finish_nosub.
  Qed.

  (** For every integrator: the first failure ends the step and is reported unchanged, all steps have
      the size of the coarse step. *)
  Definition sized_nosub (D : R) (e : event) : Prop :=
    match e with
    | Pre _ d _ | Step _ d _ _ | Rebuild _ d | Post _ d _ _ | Correct _ _ d => d = D
    | _ => True
    end.
  Definition report_nosub (D : R) (out : (list event * W) * Result) (lg : list event) : Prop :=
    exists evs, fst (fst out) = lg ++ evs /\ Forall (sized_nosub D) evs /\
      match snd out with
      | None => Forall is_ok evs
      | Some e => exists pre x, evs = pre ++ [x] /\ Forall is_ok pre /\ failure x = Some e
      end.

  Lemma report_nosub_compose : forall D a (lg : list event) out,
    Forall (sized_nosub D) a -> Forall is_ok a -> report_nosub D out (lg ++ a) -> report_nosub D out lg.
  Proof.
    intros D a lg out Ha Ho (evs & Hlg & Hs & Hv).
    exists (a ++ evs). rewrite Hlg, app_assoc. split; auto.
    split; [apply Forall_app; auto|]. destruct (snd out).
    - destruct Hv as (pre & x & -> & Hp & Hx). exists (a ++ pre), x. rewrite app_assoc, Forall_app. auto.
    - apply Forall_app; auto.
  Qed.

  Lemma report_finish_nosub : forall l dt lg w,
    report_nosub dt (finish_level_nosub (observed I) l dt (lg, w)) lg.
  Proof.
    intros l dt lg w. unfold finish_level_nosub, level_exists. simpl.
    destruct (advance_nonrecursively I l dt (0, 1)%nat w) as [w1 [e|]]; simpl.
    - exists [Step l dt (0, 1)%nat (Some e)]. simpl. repeat split; auto; [repeat constructor|].
      exists [], (Step l dt (0, 1)%nat (Some e)). auto.
    - assert (Hpost : forall lg' w' mid, lg' = lg ++ mid -> Forall (sized_nosub dt) mid -> Forall is_ok mid ->
        report_nosub dt (let '(w'', r) := post_advance_level I l dt (0, 1)%nat w' in
           ((lg' ++ [Post l dt (0, 1)%nat r], w''), r)) lg).
      { intros lg' w' mid -> Hs Hok. destruct (post_advance_level I l dt (0, 1)%nat w') as [w5 [e|]].
        - exists (mid ++ [Post l dt (0, 1)%nat (Some e)]). simpl. rewrite app_assoc. split; [reflexivity|].
          split; [apply Forall_app; split; [auto|repeat constructor; auto]|].
          exists mid, (Post l dt (0, 1)%nat (Some e)). auto.
        - exists (mid ++ [Post l dt (0, 1)%nat None]). simpl. rewrite app_assoc. split; [reflexivity|].
          split; apply Forall_app; split; auto; repeat constructor; auto. }
      destruct (Nat.ltb (S l) (num_levels I w1)); destruct l as [|c]; simpl.
      + apply (Hpost _ _ [Step 0 dt (0, 1)%nat None; Correct 1 0 dt; Average 1 0; Rebuild 0 dt; Publish 0; Fill 0]);
          [rewrite <- !app_assoc; reflexivity| |]; repeat constructor.
      + apply (Hpost _ _ [Step (S c) dt (0, 1)%nat None; Correct (S (S c)) (S c) dt; Average (S (S c)) (S c); Rebuild (S c) dt; Publish (S c); Fill (S c)]);
          [rewrite <- !app_assoc; reflexivity| |]; repeat constructor.
      + apply (Hpost _ _ [Step 0 dt (0, 1)%nat None; Publish 0; Fill 0]);
          [rewrite <- !app_assoc; reflexivity| |]; repeat constructor.
      + apply (Hpost _ _ [Step (S c) dt (0, 1)%nat None; Publish (S c); Fill (S c)]);
          [rewrite <- !app_assoc; reflexivity| |]; repeat constructor.
  Qed.

  Lemma report_advance_nosub : forall finer l dt x,
    report_nosub dt (advance_level_nosub (observed I) finer l dt x) (fst x).
  Proof.
    induction finer as [|f IH]; intros l dt [lg w]; cbn [advance_level_nosub].
    - apply (report_nosub_compose dt [Pre l dt (0, 1)%nat]); [repeat constructor|repeat constructor|].
      apply report_finish_nosub.
    - destruct (level_exists (observed I) (S l) (pre_advance_level (observed I) l dt (0, 1)%nat (lg, w))).
      + specialize (IH (S l) dt (reset_coarse_fine_fluxes (observed I) (S l) l
          (pre_advance_level (observed I) l dt (0, 1)%nat (lg, w)))).
        cbv zeta.
        destruct (advance_level_nosub (observed I) f (S l) dt _) as [[lg3 w3] [e|]].
        * apply (report_nosub_compose dt [Pre l dt (0, 1)%nat]); [repeat constructor|repeat constructor|].
          apply (report_nosub_compose dt [Reset (S l) l]); [repeat constructor|repeat constructor|].
          exact IH.
        * destruct IH as (evs & Hlg & Hs & Hv). simpl in Hlg, Hv.
          apply (report_nosub_compose dt [Pre l dt (0, 1)%nat]); [repeat constructor|repeat constructor|].
          apply (report_nosub_compose dt [Reset (S l) l]); [repeat constructor|repeat constructor|].
          apply (report_nosub_compose dt evs); auto. simpl fst. rewrite <- Hlg.
          apply report_finish_nosub.
      + apply (report_nosub_compose dt [Pre l dt (0, 1)%nat]); [repeat constructor|repeat constructor|].
        apply report_finish_nosub.
  Qed.

  Lemma C14_nosub_lemma : forall max dt w lg w' e,
    advance_hierarchy_nosub (observed I) max dt ([], w) = ((lg, w'), Some e) ->
    exists before x, lg = before ++ [x] /\ failure x = Some e /\ (forall y, In y before -> failure y = None).
  Proof.
    intros max dt w lg w' e H. unfold advance_hierarchy_nosub in H.
    pose proof (report_advance_nosub (max - 1) 0 dt ([], w)) as (evs & Hlg & _ & Hv).
    rewrite H in Hlg, Hv. simpl in Hlg, Hv. subst lg.
    destruct Hv as (pre & x & -> & Hp & Hx). exists pre, x. repeat split; auto.
    rewrite Forall_forall in Hp. exact Hp.
  Qed.

  Hypothesis fixed : fixed_levels I.

  Lemma finish_nosub_sizes : forall l dt lg w out,
    finish_level_nosub (observed I) l dt (lg, w) = out ->
    num_levels I (snd (fst out)) = num_levels I w /\
    (snd out = None -> exists evs, fst (fst out) = lg ++ evs /\
       forall j, step_sizes j evs = if Nat.eqb l j then [dt] else []).
  Proof.
    intros l dt lg w out <-.
    destruct fixed as (_ & _ & Ha & Hc & Hco & Hcf & Hcp & Hpo & Hf1 & Hf2).
    unfold finish_level_nosub, level_exists. simpl.
    pose proof (Ha l dt (0, 1)%nat w) as Ha1.
    destruct (advance_nonrecursively I l dt (0, 1)%nat w) as [w1 [e|]]; simpl in *.
    - split; auto; discriminate.
    - destruct (Nat.ltb (S l) (num_levels I w1)); simpl; destruct l as [|c]; simpl;
      match goal with |- context [post_advance_level I ?l dt ?s ?v] => pose proof (Hpo l dt s v) as Hp end;
      destruct (post_advance_level I _ dt (0, 1)%nat _) as [w5 [e|]]; simpl in *;
      (split; [congruence|]); try discriminate; intros _;
      eexists; (split; [rewrite <- !app_assoc; reflexivity|]); intros j; simpl;
      destruct j; try reflexivity; destruct (Nat.eqb c j); reflexivity.
  Qed.

  Lemma advance_nosub_sizes : forall n finer l dt lg w out,
    advance_level_nosub (observed I) finer l dt (lg, w) = out -> num_levels I w = n ->
    (l < n)%nat -> (n <= l + finer + 1)%nat ->
    num_levels I (snd (fst out)) = n /\
    (snd out = None -> exists evs, fst (fst out) = lg ++ evs /\
       forall j, step_sizes j evs = if (Nat.leb l j && Nat.ltb j n)%bool then [dt] else []).
  Proof.
    intros n; induction finer as [|f IH]; intros l dt lg w out Hout Hn Hl Hb; cbn [advance_level_nosub] in Hout.
    - change (pre_advance_level (observed I) l dt (0, 1)%nat (lg, w))
        with (lg ++ [Pre l dt (0, 1)%nat], pre_advance_level I l dt (0, 1)%nat w) in Hout.
      destruct (finish_nosub_sizes _ _ _ _ _ Hout) as [H1 H2].
      assert (Hp : num_levels I (pre_advance_level I l dt (0, 1)%nat w) = n) by (destruct fixed as [Hp _]; rewrite Hp; auto).
      split; [congruence|]. intros Hr. destruct (H2 Hr) as (evs & He & Hs).
      exists (Pre l dt (0, 1)%nat :: evs). rewrite He, <- app_assoc. split; auto.
      intros j. simpl. rewrite Hs. destruct (Nat.eqb_spec l j), (Nat.leb_spec l j), (Nat.ltb_spec j n); auto; lia.
    - set (w1 := pre_advance_level I l dt (0, 1)%nat w) in *.
      change (pre_advance_level (observed I) l dt (0, 1)%nat (lg, w)) with (lg ++ [Pre l dt (0, 1)%nat], w1) in Hout.
      assert (Hp : num_levels I w1 = n) by (unfold w1; destruct fixed as [Hp _]; rewrite Hp; auto).
      unfold level_exists in Hout. cbn [num_levels observed] in Hout. rewrite Hp in Hout.
      destruct (Nat.ltb_spec (S l) n).
      + destruct (advance_level_nosub (observed I) f (S l) dt _) as [[lg3 w3] r3] eqn:E3.
        change (reset_coarse_fine_fluxes (observed I) (S l) l (lg ++ [Pre l dt (0, 1)%nat], w1))
          with ((lg ++ [Pre l dt (0, 1)%nat]) ++ [Reset (S l) l], reset_coarse_fine_fluxes I (S l) l w1) in E3.
        destruct (IH _ _ _ _ _ E3) as [H1 H2]; try lia.
        { destruct fixed as (_ & Hr & _). rewrite Hr; auto. }
        cbn [fst snd] in H1, H2. destruct r3 as [e|].
        * subst out. simpl. split; auto; discriminate.
        * destruct (finish_nosub_sizes _ _ _ _ _ Hout) as [H3 H4].
          split; [congruence|]. intros Hr. destruct (H4 Hr) as (evs & He & Hs).
          destruct (H2 eq_refl) as (evs2 & -> & Hs2).
          exists (Pre l dt (0, 1)%nat :: Reset (S l) l :: evs2 ++ evs). rewrite He, <- !app_assoc. split; auto.
          intros j. cbn [step_sizes]. rewrite step_sizes_app, Hs, Hs2.
          destruct (Nat.eqb_spec l j), (Nat.leb_spec l j), (Nat.leb_spec (S l) j), (Nat.ltb_spec j n); auto; lia.
      + destruct (finish_nosub_sizes _ _ _ _ _ Hout) as [H1 H2].
        split; [congruence|]. intros Hr. destruct (H2 Hr) as (evs & He & Hs).
        exists (Pre l dt (0, 1)%nat :: evs). rewrite He, <- app_assoc. split; auto.
        intros j. simpl. rewrite Hs. destruct (Nat.eqb_spec l j), (Nat.leb_spec l j), (Nat.ltb_spec j n); auto; lia.
  Qed.

  Lemma C12_nosub_lemma : forall max, (forall w, (num_levels I w <= max)%nat) ->
    forall dt w lg w', (0 < num_levels I w)%nat ->
    advance_hierarchy_nosub (observed I) max dt ([], w) = ((lg, w'), None) ->
    forall l, step_sizes l lg = if Nat.ltb l (num_levels I w) then [dt] else [].
  Proof.
    intros max Hmax dt w lg w' Hn H l. unfold advance_hierarchy_nosub in H.
    pose proof (Hmax w).
    destruct (advance_nosub_sizes _ _ _ _ _ _ _ H eq_refl ltac:(lia) ltac:(lia)) as [_ H2].
    destruct (H2 eq_refl) as (evs & He & Hs). simpl in He. subst lg. rewrite Hs. reflexivity.
  Qed.
End NoSub.
