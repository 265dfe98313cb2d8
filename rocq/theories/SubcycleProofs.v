(** Proofs for level-recursive solvers. *)
From Coq Require Import Reals List Arith Lia Lra.
From Verif Require Import SplitModel SubcycleModel SubcycleSpec.
Import ListNotations.
Local Open Scope R_scope.

(** ** Lists *)
Lemma step_sizes_app : forall l a b, step_sizes l (a ++ b) = step_sizes l a ++ step_sizes l b.
Proof.
  induction a as [|e a IH]; intros b; simpl; auto.
  destruct e; auto. destruct (Nat.eqb l0 l); simpl; rewrite IH; auto.
Qed.

Lemma step_sizes_concat : forall l x q parts,
  (forall p, In p parts -> step_sizes l p = repeat x q) ->
  step_sizes l (concat parts) = repeat x (length parts * q).
Proof.
  induction parts as [|p ps IH]; intros H; simpl; auto.
  rewrite step_sizes_app, IH, (H p), repeat_app; simpl; auto.
  intros; apply H; simpl; auto.
Qed.

Lemma pair_view_app : forall l a b, pair_view l (a ++ b) = pair_view l a ++ pair_view l b.
Proof. intros; unfold pair_view; apply flat_map_app. Qed.

Lemma pair_view_cons : forall l e b, pair_view l (e :: b) = pair_view1 l e ++ pair_view l b.
Proof. reflexivity. Qed.

Lemma concat_repeat_app : forall A (x : list A) a b,
  concat (repeat x (a + b)) = concat (repeat x a) ++ concat (repeat x b).
Proof. intros; rewrite repeat_app, concat_app; auto. Qed.

Lemma pair_view_concat : forall l x q parts,
  (forall p, In p parts -> pair_view l p = concat (repeat x q)) ->
  pair_view l (concat parts) = concat (repeat x (length parts * q)).
Proof.
  induction parts as [|p ps IH]; intros H; simpl; auto.
  rewrite pair_view_app, IH, (H p), <- concat_repeat_app; simpl; auto.
  intros; apply H; simpl; auto.
Qed.

Lemma total_repeat : forall x n, total (repeat x n) = INR n * x.
Proof.
  induction n as [|n IH]; [simpl; lra|]. rewrite S_INR. simpl. rewrite IH. lra.
Qed.

Lemma ratio_product_pos : forall ratio l, (forall k, 1 <= ratio k)%nat -> (1 <= ratio_product ratio l)%nat.
Proof.
  intros ratio l H; induction l as [|l IH]; simpl; auto.
  specialize (H (S l)); nia.
Qed.

Lemma total_ratio_is_product : forall W (I : Integrator W) l,
  get_total_refine_ratio I l = ratio_product (ratio_to_coarser I) l.
Proof. induction l as [|l IH]; simpl; auto. rewrite IH. nia. Qed.

(** ** The recursion of the C++ code *)
Lemma advance_level_recursion : forall W (I : Integrator W) max,
  (forall w, (num_levels I w <= max)%nat) ->
  forall l dt sub w, (l < max)%nat ->
  advance_level I (max - 1 - l) l dt sub w =
  let w1 := pre_advance_level I l dt sub w in
  if level_exists I (S l) w1 then
    let w2 := reset_coarse_fine_fluxes I (S l) l w1 in
    let n := ratio_to_coarser I (S l) in
    match for_subcycles (fun r => advance_level I (max - 1 - S l) (S l) (dt / INR n) (r, n)) 0 n w2 with
    | (w3, Some e) => (w3, Some (scale_dt_on_error I e))
    | (w3, None) => finish_level I l dt sub w3
    end
  else finish_level I l dt sub w1.
Proof.
  intros W I max Hmax l dt sub w Hl.
  destruct (max - 1 - l)%nat as [|f] eqn:E.
  - simpl. unfold level_exists.
    pose proof (Hmax (pre_advance_level I l dt sub w)).
    destruct (Nat.ltb_spec (S l) (num_levels I (pre_advance_level I l dt sub w))); auto; lia.
  - replace (max - 1 - S l)%nat with f by lia. reflexivity.
Qed.

(** ** Observation does not change anything *)
Section Transparent.
  Context {W : Type}.
  Variable I : Integrator W.

  Definition forget (x : (list event * W) * Result) : W * Result := (snd (fst x), snd x).

  Lemma forget_for : forall (f : nat -> list event * W -> (list event * W) * Result) (g : nat -> W -> W * Result),
    (forall r x, forget (f r x) = g r (snd x)) ->
    forall k r x, forget (for_subcycles f r k x) = for_subcycles g r k (snd x).
  Proof.
    intros f g H; induction k as [|k IH]; intros r x; simpl; auto.
    rewrite <- H. destruct (f r x) as [x' [e|]]; unfold forget; simpl; auto.
    apply IH.
  Qed.

  Lemma forget_finish : forall l dt sub x,
    forget (finish_level (observed I) l dt sub x) = finish_level I l dt sub (snd x).
  Proof.
    intros l dt sub [lg w]. unfold finish_level, level_exists. simpl.
    destruct (advance_nonrecursively I l dt sub w) as [w1 [e|]]; simpl; auto.
    destruct (num_levels I w1) as [|n1] eqn:E1; simpl.
    - rewrite E1. simpl. destruct (post_advance_level I l dt sub _) as [w5 [e|]]; reflexivity.
    - destruct (Nat.ltb (S l) (S n1)) eqn:E; simpl.
      + destruct (Nat.ltb (S l) (num_levels I (apply_flux_correction I (S l) l dt w1))); simpl;
        destruct (post_advance_level I l dt sub _) as [w5 [e|]]; reflexivity.
      + rewrite E1, E. simpl. destruct (post_advance_level I l dt sub _) as [w5 [e|]]; reflexivity.
  Qed.

  Lemma forget_advance : forall finer l dt sub x,
    forget (advance_level (observed I) finer l dt sub x) = advance_level I finer l dt sub (snd x).
  Proof.
    induction finer as [|f IH]; intros l dt sub [lg w]; cbn [advance_level].
    - apply forget_finish.
    - change (level_exists (observed I) (S l) (pre_advance_level (observed I) l dt sub (lg, w)))
        with (level_exists I (S l) (pre_advance_level I l dt sub w)).
      cbn [snd].
      destruct (level_exists I (S l) (pre_advance_level I l dt sub w)).
      + pose proof (forget_for
          (fun r => advance_level (observed I) f (S l) (dt / INR (ratio_to_coarser I (S l))) (r, ratio_to_coarser I (S l)))
          (fun r => advance_level I f (S l) (dt / INR (ratio_to_coarser I (S l))) (r, ratio_to_coarser I (S l)))
          (fun r x => IH _ _ _ x) (ratio_to_coarser I (S l)) 0%nat
          (reset_coarse_fine_fluxes (observed I) (S l) l (pre_advance_level (observed I) l dt sub (lg, w)))) as H.
        cbn [snd] in H. simpl in H |- *. rewrite <- H.
        destruct (for_subcycles _ _ _ _) as [x [e|]].
        * reflexivity.
        * unfold forget at 2; cbn [fst snd]. apply (forget_finish l dt sub x).
      + apply forget_finish.
  Qed.

  Lemma forget_fill : forall k l x, snd (fill_finer (observed I) k l x) = fill_finer I k l (snd x).
  Proof.
    induction k as [|k IH]; intros l [lg w]; simpl; auto.
    unfold level_exists. simpl. destruct (Nat.ltb l (num_levels I w)); auto. rewrite IH. reflexivity.
  Qed.

  Lemma forget_hierarchy : forall max fr dt x,
    forget (advance_hierarchy_subcycle (observed I) max fr dt x) =
    advance_hierarchy_subcycle I max fr dt (snd x).
  Proof.
    intros max fr dt x. unfold advance_hierarchy_subcycle.
    rewrite <- forget_advance.
    destruct (advance_level (observed I) (max - 1) 0 dt (0, 1)%nat x) as [[lg w1] [e|]]; auto.
    unfold forget at 2. cbn [fst snd]. cbn [cycles observed].
    destruct (Nat.eqb (cycles I w1 mod fr) 0); [|reflexivity].
    unfold forget. cbn [fst snd]. rewrite forget_fill. reflexivity.
  Qed.
End Transparent.

(** ** Failures and step sizes, for every integrator *)
Definition is_ok (e : event) : Prop := failure e = None.

Lemma scale_twice : forall W (I : Integrator W) e,
  scale_dt_on_error I (scale_dt_on_error I e) = scale_dt_on_error I e.
Proof. intros W I [d l]. unfold scale_dt_on_error. simpl. f_equal. lra. Qed.

Section General.
  Context {W : Type}.
  Variable I : Integrator W.
  Notation rp := (ratio_product (ratio_to_coarser I)).

  Definition sized (D : R) (e : event) : Prop :=
    match e with
    | Pre l d _ | Step l d _ _ | Rebuild l d | Post l d _ _ => d = D / INR (rp l)
    | Correct f c d => f = S c /\ d = D / INR (rp c)
    | _ => True
    end.

  Definition verdict (evs : list event) (r : Result) : Prop :=
    match r with
    | None => Forall is_ok evs
    | Some e' => exists pre x e, evs = pre ++ [x] /\ Forall is_ok pre /\ failure x = Some e /\
                   e' = scale_dt_on_error I e
    end.

  Lemma verdict_prepend : forall a b r, Forall is_ok a -> verdict b r -> verdict (a ++ b) r.
  Proof.
    intros a b [e'|] Ha H; simpl in *.
    - destruct H as (pre & x & e & -> & Hp & Hx & ->).
      exists (a ++ pre), x, e. rewrite app_assoc, Forall_app. auto.
    - rewrite Forall_app; auto.
  Qed.

  Definition report (D : R) (out : (list event * W) * Result) (lg : list event) : Prop :=
    exists evs, fst (fst out) = lg ++ evs /\ Forall (sized D) evs /\ verdict evs (snd out).

  Lemma report_finish : forall D l dt sub lg w, dt = D / INR (rp l) ->
    report D (finish_level (observed I) l dt sub (lg, w)) lg.
  Proof.
    intros D l dt sub lg w Hdt.
    unfold finish_level, level_exists. simpl.
    destruct (advance_nonrecursively I l dt sub w) as [w1 [e|]]; simpl.
    - exists [Step l dt sub (Some e)]. simpl. repeat split; auto.
      exists [], (Step l dt sub (Some e)), e. auto.
    - assert (Hpost : forall (x : list event * W) mid,
        fst x = lg ++ mid -> Forall (sized D) mid -> Forall is_ok mid ->
        report D (let '(w5, o) :=
          (let '(lg0, w0) := x in
           (let '(w', r) := post_advance_level I l dt sub w0 in ((lg0 ++ [Post l dt sub r], w'), r))) in
          match o with Some e => (w5, Some (scale_dt_on_error (observed I) e)) | None => (w5, None) end) lg).
      { intros [lg0 w0] mid Hlg Hs Hok. simpl in Hlg. subst lg0.
        destruct (post_advance_level I l dt sub w0) as [w5 [e|]]; simpl.
        - exists (mid ++ [Post l dt sub (Some e)]). rewrite app_assoc. split; [reflexivity|].
          split; [apply Forall_app; split; [auto|repeat constructor; auto]|].
          exists mid, (Post l dt sub (Some e)), e. auto.
        - exists (mid ++ [Post l dt sub None]). rewrite app_assoc. split; [reflexivity|].
          split; [apply Forall_app; split; [auto|repeat constructor; auto]|].
          apply Forall_app; split; [auto|repeat constructor; auto]. }
      destruct (Nat.ltb (S l) (num_levels I w1)) eqn:E1.
      + destruct (Nat.ltb (S l) (num_levels I (apply_flux_correction I (S l) l dt w1))) eqn:E2.
        * apply (Hpost (_, _) [Step l dt sub None; Correct (S l) l dt; Average (S l) l; Rebuild l dt; Publish l]);
            simpl; [rewrite <- !app_assoc; reflexivity| |]; repeat constructor; simpl; auto.
        * apply (Hpost (_, _) [Step l dt sub None; Correct (S l) l dt; Publish l]);
            simpl; [rewrite <- !app_assoc; reflexivity| |]; repeat constructor; simpl; auto.
      + rewrite E1.
        apply (Hpost (_, _) [Step l dt sub None; Publish l]);
            simpl; [rewrite <- !app_assoc; reflexivity| |]; repeat constructor; simpl; auto.
  Qed.

  Lemma report_for : forall D (f : nat -> list event * W -> (list event * W) * Result),
    (forall r x, report D (f r x) (fst x)) ->
    forall k r x, report D (for_subcycles f r k x) (fst x).
  Proof.
    intros D f Hf; induction k as [|k IH]; intros r x; simpl.
    - exists []. rewrite app_nil_r. repeat split; constructor.
    - specialize (Hf r x). destruct Hf as (evs & Hlg & Hs & Hv).
      destruct (f r x) as [x' [e|]]; simpl in *.
      + exists evs. auto.
      + destruct (IH (S r) x') as (evs' & Hlg' & Hs' & Hv').
        exists (evs ++ evs'). rewrite Hlg', Hlg, app_assoc. split; auto.
        split; [apply Forall_app; auto|]. apply verdict_prepend; auto.
  Qed.

  Hypothesis ratios_positive : forall l, (1 <= ratio_to_coarser I l)%nat.

  Lemma finer_size : forall D l, D / INR (rp l) / INR (ratio_to_coarser I (S l)) = D / INR (rp (S l)).
  Proof.
    intros D l. simpl. rewrite mult_INR.
    assert (INR (ratio_to_coarser I (S l)) <> 0) by (apply not_0_INR; specialize (ratios_positive (S l)); lia).
    assert (INR (rp l) <> 0) by (apply not_0_INR; pose proof (ratio_product_pos _ l ratios_positive); lia).
    field. auto.
  Qed.

  Lemma report_compose : forall D a (lg : list event) out lg1,
    lg1 = lg ++ a -> Forall (sized D) a -> Forall is_ok a -> report D out lg1 -> report D out lg.
  Proof.
    intros D a lg out lg1 -> Ha Ho (evs & Hlg & Hs & Hv).
    exists (a ++ evs). rewrite Hlg, app_assoc. split; auto.
    split; [apply Forall_app; auto|]. apply verdict_prepend; auto.
  Qed.

  Lemma report_advance : forall D finer l dt sub x, dt = D / INR (rp l) ->
    report D (advance_level (observed I) finer l dt sub x) (fst x).
  Proof.
    intros D; induction finer as [|f IH]; intros l dt sub [lg w] Hdt; cbn [advance_level].
    - apply (report_compose D [Pre l dt sub] lg _ (lg ++ [Pre l dt sub])); auto;
        try (repeat constructor; assumption).
      apply report_finish; auto.
    - destruct (level_exists (observed I) (S l) (pre_advance_level (observed I) l dt sub (lg, w))).
      + pose proof (report_for D
          (fun r => advance_level (observed I) f (S l) (dt / INR (ratio_to_coarser I (S l))) (r, ratio_to_coarser I (S l)))
          (fun r x => IH (S l) (dt / INR (ratio_to_coarser I (S l))) (r, ratio_to_coarser I (S l)) x
             (eq_trans (f_equal (fun d => d / INR (ratio_to_coarser I (S l))) Hdt) (finer_size D l)))
          (ratio_to_coarser I (S l)) 0%nat
          (reset_coarse_fine_fluxes (observed I) (S l) l (pre_advance_level (observed I) l dt sub (lg, w)))) as H.
        change (ratio_to_coarser (observed I)) with (ratio_to_coarser I).
        cbv zeta.
        destruct (for_subcycles _ _ _ _) as [[lg3 w3] [e|]].
        * destruct H as (evs & Hlg & Hs & Hv). simpl in Hlg, Hv.
          exists ([Pre l dt sub; Reset (S l) l] ++ evs). simpl.
          split; [rewrite Hlg, <- !app_assoc; reflexivity|].
          split; [repeat constructor; auto|].
          destruct Hv as (pre & x & e0 & -> & Hp & Hx & ->).
          exists (Pre l dt sub :: Reset (S l) l :: pre), x, e0.
          split; [reflexivity|]. split; [repeat constructor; auto|]. split; auto.
          exact (scale_twice W I e0).
        * destruct H as (evs & Hlg & Hs & Hv). simpl in Hlg, Hv.
          apply (report_compose D ([Pre l dt sub; Reset (S l) l] ++ evs) lg _ lg3).
          -- rewrite Hlg, <- !app_assoc; reflexivity.
          -- repeat constructor; auto.
          -- repeat constructor; auto.
          -- apply report_finish; auto.
      + apply (report_compose D [Pre l dt sub] lg _ (lg ++ [Pre l dt sub])); auto;
          try (repeat constructor; assumption).
        apply report_finish; auto.
  Qed.

  Lemma fill_log : forall k l x, exists evs,
    fst (fill_finer (observed I) k l x) = fst x ++ evs /\ (forall e, In e evs -> exists j, e = Fill j).
  Proof.
    induction k as [|k IH]; intros l [lg w]; simpl.
    - exists []. rewrite app_nil_r; split; auto. intros e [].
    - destruct (level_exists (observed I) l (lg, w)).
      + destruct (IH (S l) (lg ++ [Fill l], fill_ghost_two I l (l - 1) w)) as (evs & H & Hf).
        exists (Fill l :: evs). simpl in *. rewrite H, <- app_assoc. split; auto.
        intros e [<-|He]; eauto.
      + exists []. rewrite app_nil_r; split; auto. intros e [].
  Qed.

  (** The log of AdvanceHierarchy is the log of AdvanceLevel followed by filling of ghost cells. *)
  Lemma hierarchy_log : forall max fr dt lg w out,
    advance_hierarchy_subcycle (observed I) max fr dt (lg, w) = out ->
    exists x1, let '(o1, r1) := advance_level (observed I) (max - 1) 0 dt (0, 1)%nat (lg, w) in
      x1 = fst o1 /\ snd out = r1 /\
      exists fills, fst (fst out) = x1 ++ fills /\ (forall e, In e fills -> exists j, e = Fill j) /\
        (r1 <> None -> fills = []).
  Proof.
    intros max fr dt lg w out <-. unfold advance_hierarchy_subcycle.
    destruct (advance_level (observed I) (max - 1) 0 dt (0, 1)%nat (lg, w)) as [[lg1 w1] [e|]].
    - exists lg1. simpl. repeat split; auto. exists []. rewrite app_nil_r. repeat split; auto. intros e' [].
    - exists lg1. cbn [fst]. split; auto.
      destruct (Nat.eqb (cycles (observed I) (lg1, w1) mod fr) 0); simpl; split; auto.
      + destruct (fill_log max 1 (lg1 ++ [Fill 0], fill_ghost_single I 0 w1)) as (evs & H & Hf).
        exists (Fill 0 :: evs). cbn [fst] in H. rewrite H, <- app_assoc. repeat split; auto.
        * intros e [<-|He]; eauto.
        * congruence.
      + exists []. rewrite app_nil_r. repeat split; auto. intros e' [].
  Qed.
End General.

(** ** Shape of successful steps *)
Section Plan.
  Context {W : Type}.
  Variable I : Integrator W.
  Variable P : nat -> bool -> Prop.
  Notation ratio := (ratio_to_coarser I).

  Definition plan_tail (l : nat) (dt : R) (sub : nat * nat) (b : bool) : list event :=
    Step l dt sub None :: (if b then [Correct (S l) l dt; Average (S l) l; Rebuild l dt] else []) ++
    [Publish l; Post l dt sub None].

  Fixpoint plan (finer l : nat) (dt : R) (sub : nat * nat) (evs : list event) : Prop :=
    (P l false /\ evs = Pre l dt sub :: plan_tail l dt sub false) \/
    match finer with
    | O => False
    | S f => P l true /\ exists parts, length parts = ratio (S l) /\
        (forall r p, nth_error parts r = Some p -> plan f (S l) (dt / INR (ratio (S l))) (r, ratio (S l)) p) /\
        evs = Pre l dt sub :: Reset (S l) l :: concat parts ++ plan_tail l dt sub true
    end.

  Variable max : nat.
  Hypothesis bounded : forall w, (num_levels I w <= max)%nat.
  Hypothesis finer_only : regrids_finer_levels I.
  Variable Inv : W -> Prop.
  Hypothesis Inv_pre : forall l dt s w, Inv w -> Inv (pre_advance_level I l dt s w).
  Hypothesis Inv_same : forall w w', num_levels I w' = num_levels I w -> Inv w -> Inv w'.
  Hypothesis Inv_P : forall l w, Inv w -> P l (Nat.ltb (S l) (num_levels I w)).

  Definition keeps (l : nat) (w w' : W) : Prop :=
    forall j, (j <= l)%nat -> (j < num_levels I w' <-> j < num_levels I w)%nat.

  Lemma keeps_same : forall l w w', num_levels I w' = num_levels I w -> keeps l w w'.
  Proof. intros l w w' H j _; rewrite H; tauto. Qed.
  Lemma keeps_trans : forall l a b c, keeps l a b -> keeps l b c -> keeps l a c.
  Proof. intros l a b c H1 H2 j Hj; rewrite (H2 j Hj); auto. Qed.
  Lemma keeps_le : forall l k a b, (k <= l)%nat -> keeps l a b -> keeps k a b.
  Proof. intros l k a b H1 H2 j Hj; apply H2; lia. Qed.

  Lemma ltb_keeps : forall l w w', keeps (S l) w w' ->
    Nat.ltb (S l) (num_levels I w') = Nat.ltb (S l) (num_levels I w).
  Proof.
    intros l w w' H. specialize (H (S l) (le_n _)).
    destruct (Nat.ltb_spec (S l) (num_levels I w')), (Nat.ltb_spec (S l) (num_levels I w)); auto; lia.
  Qed.

  Lemma finish_plan : forall l dt sub lg w out,
    finish_level (observed I) l dt sub (lg, w) = out ->
    num_levels I (snd (fst out)) = num_levels I w /\
    (snd out = None -> fst (fst out) = lg ++ plan_tail l dt sub (Nat.ltb (S l) (num_levels I w))).
  Proof.
    intros l dt sub lg w out <-.
    destruct finer_only as (_ & _ & Ha & Hc & Hco & Hcf & Hcp & Hpo & _).
    unfold finish_level, level_exists. simpl.
    pose proof (Ha l dt sub w) as Ha1.
    destruct (advance_nonrecursively I l dt sub w) as [w1 [e|]]; simpl in *.
    - split; auto; discriminate.
    - rewrite Ha1.
      destruct (Nat.ltb (S l) (num_levels I w)) eqn:E.
      + simpl. rewrite Hc, Ha1, E. simpl.
        match goal with |- context [post_advance_level I l dt sub ?v] => pose proof (Hpo l dt sub v) as Hp end.
        destruct (post_advance_level I l dt sub _) as [w5 [e|]]; simpl in *;
          rewrite Hp, Hcp, Hcf, Hco, Hc, Ha1; split; auto; try discriminate.
        intros _. unfold plan_tail. rewrite <- !app_assoc. reflexivity.
      + simpl. rewrite Ha1, E. simpl.
        match goal with |- context [post_advance_level I l dt sub ?v] => pose proof (Hpo l dt sub v) as Hp end.
        destruct (post_advance_level I l dt sub _) as [w5 [e|]]; simpl in *;
          rewrite Hp, Hcp, Ha1; split; auto; try discriminate.
        intros _. unfold plan_tail. rewrite <- !app_assoc. reflexivity.
  Qed.

  Lemma advance_plan : forall finer l dt sub lg w out,
    (l + finer + 1 = max)%nat ->
    advance_level (observed I) finer l dt sub (lg, w) = out -> Inv w ->
    Inv (snd (fst out)) /\ keeps l w (snd (fst out)) /\
    (snd out = None -> exists evs, fst (fst out) = lg ++ evs /\ plan finer l dt sub evs).
  Proof.
    induction finer as [|f IH]; intros l dt sub lg w out Hmax Hout HI; cbn [advance_level] in Hout.
    - change (pre_advance_level (observed I) l dt sub (lg, w))
        with (lg ++ [Pre l dt sub], pre_advance_level I l dt sub w) in Hout.
      destruct (finish_plan _ _ _ _ _ _ Hout) as [Hn Hlog].
      pose proof (Inv_pre l dt sub _ HI) as HI1.
      assert (keeps l w (pre_advance_level I l dt sub w)) as Hk1 by (intros j Hj; apply finer_only; auto).
      split; [eapply Inv_same; eauto|]. split; [eapply keeps_trans; [exact Hk1|apply keeps_same; auto]|].
      intros Hr. specialize (Hlog Hr). rewrite Hlog.
      pose proof (bounded (pre_advance_level I l dt sub w)) as Hb.
      destruct (Nat.ltb_spec (S l) (num_levels I (pre_advance_level I l dt sub w))); [lia|].
      exists (Pre l dt sub :: plan_tail l dt sub false). rewrite <- app_assoc. split; auto.
      simpl. left. split; auto.
      pose proof (Inv_P l _ HI1) as HP.
      destruct (Nat.ltb_spec (S l) (num_levels I (pre_advance_level I l dt sub w))); [lia|auto].
    - set (w1 := pre_advance_level I l dt sub w) in *.
      change (pre_advance_level (observed I) l dt sub (lg, w)) with (lg ++ [Pre l dt sub], w1) in Hout.
      pose proof (Inv_pre l dt sub _ HI) as HI1. fold w1 in HI1.
      assert (keeps l w w1) as Hk1 by (intros j Hj; apply finer_only; auto).
      pose proof (Inv_P l _ HI1) as HP.
      unfold level_exists in Hout. cbn [num_levels observed] in Hout.
      destruct (Nat.ltb (S l) (num_levels I w1)) eqn:E1.
      + change (reset_coarse_fine_fluxes (observed I) (S l) l (lg ++ [Pre l dt sub], w1))
          with ((lg ++ [Pre l dt sub]) ++ [Reset (S l) l], reset_coarse_fine_fluxes I (S l) l w1) in Hout.
        change (ratio_to_coarser (observed I)) with ratio in Hout.
        set (n := ratio (S l)) in *.
        set (w2 := reset_coarse_fine_fluxes I (S l) l w1) in *.
        set (lg2 := (lg ++ [Pre l dt sub]) ++ [Reset (S l) l]) in *.
        assert (Hn2 : num_levels I w2 = num_levels I w1) by (apply finer_only).
        assert (HI2 : Inv w2) by (eapply Inv_same; eauto).
        set (body := fun r => advance_level (observed I) f (S l) (dt / INR n) (r, n)) in *.
        assert (Hfor : forall k r lg0 w0 o, for_subcycles body r k (lg0, w0) = o -> Inv w0 ->
                  Inv (snd (fst o)) /\ keeps (S l) w0 (snd (fst o)) /\
                  (snd o = None -> exists parts, length parts = k /\
                     (forall i p, nth_error parts i = Some p -> plan f (S l) (dt / INR n) ((r + i)%nat, n) p) /\
                     fst (fst o) = lg0 ++ concat parts)).
        { induction k as [|k IHk]; intros r lg0 w0 o Ho HI0; simpl in Ho.
          - subst o. simpl. split; auto. split; [intros j _; tauto|]. intros _.
            exists []. simpl. rewrite app_nil_r. repeat split; auto. intros [|i] p; discriminate.
          - destruct (body r (lg0, w0)) as [[lg' w'] [e|]] eqn:Eb.
            + subst o. destruct (IH (S l) _ _ _ _ _ ltac:(lia) Eb HI0) as (HI' & Hk' & _).
              simpl in *. split; auto. split; auto. discriminate.
            + destruct (IH (S l) _ _ _ _ _ ltac:(lia) Eb HI0) as (HI' & Hk' & Hp').
              simpl in HI', Hk', Hp'. destruct (Hp' eq_refl) as (evs & -> & Hplan).
              destruct (IHk _ _ _ _ Ho HI') as (HIo & Hko & Hpo).
              split; auto. split; [eapply keeps_trans; eauto|].
              intros Hr. destruct (Hpo Hr) as (parts & Hlen & Hparts & Hlg).
              exists (evs :: parts). simpl. split; [auto|]. split; [|rewrite Hlg, app_assoc; auto].
              intros [|i] p Hp; simpl in Hp.
              * injection Hp as <-. rewrite Nat.add_0_r. auto.
              * replace (r + S i)%nat with (S r + i)%nat by lia. auto. }
        destruct (for_subcycles body 0 n (lg2, w2)) as [[lg3 w3] r3] eqn:E3.
        destruct (Hfor _ _ _ _ _ E3 HI2) as (HI3 & Hk3 & Hp3). simpl in HI3, Hk3, Hp3.
        assert (Hk13 : keeps (S l) w1 w3) by (eapply keeps_trans; [apply keeps_same, Hn2|auto]).
        destruct r3 as [e|].
        * subst out. simpl. split; auto. split; [|discriminate].
          eapply keeps_trans; [exact Hk1|]. eapply keeps_le; [|exact Hk13]; lia.
        * destruct (Hp3 eq_refl) as (parts & Hlen & Hparts & Hlg3).
          destruct (finish_plan _ _ _ _ _ _ Hout) as [Hn Hlog].
          split; [eapply Inv_same; eauto|]. split.
          { eapply keeps_trans; [exact Hk1|]. eapply keeps_trans; [eapply keeps_le; [|exact Hk13]; lia|].
            apply keeps_same; auto. }
          intros Hr. rewrite (Hlog Hr), (ltb_keeps _ _ _ Hk13), E1, Hlg3.
          exists (Pre l dt sub :: Reset (S l) l :: concat parts ++ plan_tail l dt sub true).
          unfold lg2. rewrite <- !app_assoc. split; auto.
          simpl. right. split; auto. exists parts. auto.
      + destruct (finish_plan _ _ _ _ _ _ Hout) as [Hn Hlog].
        split; [eapply Inv_same; eauto|]. split; [eapply keeps_trans; [exact Hk1|apply keeps_same; auto]|].
        intros Hr. rewrite (Hlog Hr), E1.
        exists (Pre l dt sub :: plan_tail l dt sub false). rewrite <- app_assoc. split; auto.
        simpl. left. auto.
  Qed.
End Plan.

(** ** Reading off the shape *)
Section Read.
  Context {W : Type}.
  Variable I : Integrator W.
  Notation ratio := (ratio_to_coarser I).
  Hypothesis ratios_positive : forall l, (1 <= ratio l)%nat.

  (** product of the ratios of levels l+1 .. l+k *)
  Fixpoint between (l k : nat) : nat :=
    match k with O => 1 | S k' => ratio (S l) * between (S l) k' end.

  Lemma between_product : forall k l, (ratio_product ratio l * between l k = ratio_product ratio (l + k))%nat.
  Proof.
    induction k as [|k IH]; intros l; cbn [between].
    - rewrite Nat.add_0_r. lia.
    - replace (l + S k)%nat with (S l + k)%nat by lia. rewrite <- IH. simpl. nia.
  Qed.

  Lemma between_pos : forall k l, (1 <= between l k)%nat.
  Proof. induction k as [|k IH]; intros l; simpl; auto. specialize (IH (S l)). specialize (ratios_positive (S l)). nia. Qed.

  Lemma between_div : forall l k dt, dt / INR (ratio (S l)) / INR (between (S l) k) = dt / INR (between l (S k)).
  Proof.
    intros l k dt. cbn [between]. rewrite mult_INR.
    assert (INR (ratio (S l)) <> 0) by (apply not_0_INR; specialize (ratios_positive (S l)); lia).
    assert (INR (between (S l) k) <> 0) by (apply not_0_INR; pose proof (between_pos k (S l)); lia).
    field; auto.
  Qed.

  Lemma tail_sizes : forall j l dt sub b, step_sizes j (plan_tail l dt sub b) = if Nat.eqb l j then [dt] else [].
  Proof. intros j l dt sub b. unfold plan_tail. destruct b; simpl; destruct (Nat.eqb l j); auto. Qed.

  Lemma plan_sizes_below : forall P finer l dt sub evs j, plan I P finer l dt sub evs -> (j < l)%nat ->
    step_sizes j evs = [].
  Proof.
    induction finer as [|f IH]; intros l dt sub evs j [[_ ->]|H] Hj;
      try (cbn [step_sizes]; rewrite tail_sizes; destruct (Nat.eqb_spec l j); [lia|auto]); [easy|].
    destruct H as (_ & parts & Hlen & Hparts & ->). cbn [step_sizes].
    rewrite step_sizes_app, tail_sizes. destruct (Nat.eqb_spec l j); [lia|].
    rewrite (step_sizes_concat j 0 0); [rewrite Nat.mul_0_r; auto|].
    intros p Hp. apply In_nth_error in Hp as [r Hr]. simpl. eapply IH; eauto.
  Qed.

  Definition static (n : nat) (l : nat) (b : bool) : Prop := b = Nat.ltb (S l) n.

  Lemma plan_sizes : forall n k finer l dt sub evs, plan I (static n) finer l dt sub evs ->
    (l + k < n)%nat ->
    step_sizes (l + k) evs = repeat (dt / INR (between l k)) (between l k).
  Proof.
    intros n; induction k as [|k IH]; intros finer l dt sub evs Hp Hn.
    - rewrite Nat.add_0_r. simpl (between l 0). replace (dt / INR 1) with dt by (simpl; lra).
      destruct finer as [|f]; destruct Hp as [[Hs ->]|Hp]; try easy;
        try (cbn [step_sizes]; rewrite tail_sizes, Nat.eqb_refl; reflexivity).
      destruct Hp as (_ & parts & Hlen & Hparts & ->). cbn [step_sizes].
      rewrite step_sizes_app, tail_sizes, Nat.eqb_refl.
      rewrite (step_sizes_concat l 0 0); [rewrite Nat.mul_0_r; auto|].
      intros p Hp. apply In_nth_error in Hp as [r Hr]. simpl. eapply plan_sizes_below; eauto.
    - destruct finer as [|f]; destruct Hp as [[Hs ->]|Hp]; try easy.
      + unfold static in Hs. destruct (Nat.ltb_spec (S l) n); [discriminate|lia].
      + unfold static in Hs. destruct (Nat.ltb_spec (S l) n); [discriminate|lia].
      + destruct Hp as (_ & parts & Hlen & Hparts & ->). cbn [step_sizes].
        rewrite step_sizes_app, tail_sizes. destruct (Nat.eqb_spec l (l + S k)); [lia|].
        rewrite app_nil_r.
        rewrite (step_sizes_concat _ (dt / INR (between l (S k))) (between (S l) k)).
        * rewrite Hlen. reflexivity.
        * intros p Hp. apply In_nth_error in Hp as [r Hr].
          replace (l + S k)%nat with (S l + k)%nat by lia.
          rewrite (IH _ _ _ _ _ (Hparts _ _ Hr)) by lia. rewrite between_div. reflexivity.
  Qed.

  Lemma plan_sizes_above : forall n finer l dt sub evs j, plan I (static n) finer l dt sub evs ->
    (l < n)%nat -> (n <= j)%nat -> step_sizes j evs = [].
  Proof.
    intros n; induction finer as [|f IH]; intros l dt sub evs j [[_ ->]|H] Hl Hj;
      try (cbn [step_sizes]; rewrite tail_sizes; destruct (Nat.eqb_spec l j); [lia|auto]); [easy|].
    destruct H as (Hs & parts & Hlen & Hparts & ->). cbn [step_sizes].
    rewrite step_sizes_app, tail_sizes. destruct (Nat.eqb_spec l j); [lia|].
    rewrite (step_sizes_concat j 0 0); [rewrite Nat.mul_0_r; auto|].
    intros p Hp. apply In_nth_error in Hp as [r Hr]. simpl. eapply IH; eauto.
    unfold static in Hs. destruct (Nat.ltb_spec (S l) n); [auto|discriminate].
  Qed.

  (** pair views *)
  Ltac eqbs := repeat match goal with
    | |- context [Nat.eqb ?a ?b] => destruct (Nat.eqb_spec a b); try lia
    end.

  Lemma tail_view_coarse : forall l dt sub b, pair_view l (plan_tail l dt sub b) =
    CoarseStep dt :: (if b then [Corrected; Averaged; Rebuilt] else []) ++ [CoarsePublished].
  Proof.
    intros. unfold plan_tail, pair_view. destruct b; cbn [flat_map pair_view1 app]; eqbs; reflexivity.
  Qed.
  Lemma tail_view_fine : forall l dt sub b, pair_view l (plan_tail (S l) dt sub b) = [FineStep dt; FinePublished].
  Proof. intros. unfold plan_tail, pair_view. destruct b; cbn [flat_map pair_view1 app]; eqbs; reflexivity. Qed.
  Lemma tail_view_other : forall j l dt sub b, l <> j -> l <> S j -> pair_view j (plan_tail l dt sub b) = [].
  Proof. intros. unfold plan_tail, pair_view. destruct b; cbn [flat_map pair_view1 app]; eqbs; reflexivity. Qed.

  Lemma concat_nil_view : forall j parts, (forall p, In p parts -> pair_view j p = []) ->
    pair_view j (concat parts) = [].
  Proof.
    intros j parts H. rewrite (pair_view_concat j [] 0).
    - rewrite Nat.mul_0_r. reflexivity.
    - simpl; auto.
  Qed.

  Lemma plan_view_below : forall P finer l dt sub evs j, plan I P finer l dt sub evs -> (S j < l)%nat ->
    pair_view j evs = [].
  Proof.
    induction finer as [|f IH]; intros l dt sub evs j [[_ ->]|H] Hj;
      try (rewrite pair_view_cons, tail_view_other by lia; reflexivity); [easy|].
    destruct H as (_ & parts & Hlen & Hparts & ->). rewrite !pair_view_cons, pair_view_app, tail_view_other by lia.
    rewrite concat_nil_view; [cbn [flat_map pair_view1 app]; eqbs; reflexivity|].
    intros p Hp. apply In_nth_error in Hp as [r Hr]. eapply IH; eauto.
  Qed.

  Lemma plan_view_fine : forall P finer l dt sub evs, plan I P finer (S l) dt sub evs ->
    pair_view l evs = [FineStep dt; FinePublished].
  Proof.
    destruct finer as [|f]; intros l dt sub evs [[_ ->]|H];
      try (rewrite pair_view_cons, tail_view_fine; reflexivity); [easy|].
    destruct H as (_ & parts & Hlen & Hparts & ->).
    rewrite !pair_view_cons, pair_view_app, tail_view_fine.
    rewrite concat_nil_view; [cbn [flat_map pair_view1 app]; eqbs; reflexivity|].
    intros p Hp. apply In_nth_error in Hp as [r Hr]. eapply plan_view_below; eauto.
  Qed.

  Lemma plan_view_here : forall P finer l dt sub evs, plan I P finer l dt sub evs ->
    (P l false /\ pair_view l evs = unrefined_block dt) \/
    (P l true /\ pair_view l evs = refined_block (ratio (S l)) dt).
  Proof.
    destruct finer as [|f]; intros l dt sub evs [[HP ->]|H];
      try (left; split; [assumption|]; rewrite pair_view_cons, tail_view_coarse; reflexivity); [easy|].
    destruct H as (HP & parts & Hlen & Hparts & ->). right. split; auto.
    rewrite !pair_view_cons, pair_view_app, tail_view_coarse.
    rewrite (pair_view_concat l [FineStep (dt / INR (ratio (S l))); FinePublished] 1).
    - rewrite Nat.mul_1_r, Hlen. cbn [pair_view1]. rewrite !Nat.eqb_refl. reflexivity.
    - intros p Hp. apply In_nth_error in Hp as [r Hr]. rewrite (plan_view_fine _ _ _ _ _ _ (Hparts _ _ Hr)).
      reflexivity.
  Qed.

  Lemma blocks_concat : forall (Q : list symbol -> Prop) j q parts,
    (forall p, In p parts -> exists blocks, pair_view j p = concat blocks /\ (length blocks <= q)%nat /\
       Forall Q blocks) ->
    exists blocks, pair_view j (concat parts) = concat blocks /\ (length blocks <= length parts * q)%nat /\
       Forall Q blocks.
  Proof.
    intros Q j q; induction parts as [|p ps IHp]; intros Hall; simpl.
    - exists []. simpl. auto.
    - destruct (Hall p (or_introl eq_refl)) as (b1 & Hb1 & Hc1 & Hf1).
      destruct IHp as (b2 & Hb2 & Hc2 & Hf2); [intros; apply Hall; simpl; auto|].
      exists (b1 ++ b2). rewrite pair_view_app, Hb1, Hb2, concat_app, app_length.
      repeat split; auto; try lia. apply Forall_app; auto.
  Qed.

  Lemma plan_view_blocks : forall P k finer l dt sub evs, plan I P finer l dt sub evs ->
    exists blocks, pair_view (l + k) evs = concat blocks /\ (length blocks <= between l k)%nat /\
      Forall (fun b => b = unrefined_block (dt / INR (between l k)) \/
                       b = refined_block (ratio (S (l + k))) (dt / INR (between l k))) blocks.
  Proof.
    intros P; induction k as [|k IH]; intros finer l dt sub evs Hp.
    - rewrite Nat.add_0_r. simpl (between l 0). replace (dt / INR 1) with dt by (simpl; lra).
      exists [pair_view l evs]. simpl. rewrite app_nil_r. repeat split; auto.
      constructor; [|constructor]. destruct (plan_view_here _ _ _ _ _ _ Hp) as [[_ ->]|[_ ->]]; auto.
    - assert (Hnil : (P l false /\ evs = Pre l dt sub :: plan_tail l dt sub false) ->
                exists blocks, pair_view (l + S k) evs = concat blocks /\ (length blocks <= between l (S k))%nat /\
      Forall (fun b => b = unrefined_block (dt / INR (between l (S k))) \/
                       b = refined_block (ratio (S (l + S k))) (dt / INR (between l (S k)))) blocks).
      { intros [_ ->]. exists []. rewrite pair_view_cons, tail_view_other by lia. repeat split; auto.
        simpl; lia. }
      destruct finer as [|f]; destruct Hp as [Hleaf|Hp]; try (exact (Hnil Hleaf)); [easy|].
      destruct Hp as (_ & parts & Hlen & Hparts & ->).
      rewrite !pair_view_cons, pair_view_app, (tail_view_other (l + S k) l) by lia.
      cbn [pair_view1]. destruct (Nat.eqb_spec (S l) (S (l + S k))); [lia|]. cbn [andb app]. rewrite app_nil_r.
      clear Hnil.
      assert (Hall : forall p, In p parts -> exists blocks, pair_view (l + S k) p = concat blocks /\
                (length blocks <= between (S l) k)%nat /\
                Forall (fun b => b = unrefined_block (dt / INR (between l (S k))) \/
                       b = refined_block (ratio (S (l + S k))) (dt / INR (between l (S k)))) blocks).
      { intros p Hp. apply In_nth_error in Hp as [r Hr].
        destruct (IH _ _ _ _ _ (Hparts _ _ Hr)) as (bs & Hb & Hc & Hf).
        rewrite between_div in Hf. replace (S l + k)%nat with (l + S k)%nat in * by lia.
        exists bs. auto. }
      destruct (blocks_concat _ _ _ _ Hall) as (bs & Hb & Hc & Hf).
      exists bs. rewrite Hlen in Hc. exact (conj Hb (conj Hc Hf)).
  Qed.

  Lemma plan_view_static : forall n k finer l dt sub evs, plan I (static n) finer l dt sub evs ->
    (S (l + k) < n)%nat ->
    pair_view (l + k) evs = concat (repeat (refined_block (ratio (S (l + k))) (dt / INR (between l k))) (between l k)).
  Proof.
    intros n; induction k as [|k IH]; intros finer l dt sub evs Hp Hn.
    - rewrite Nat.add_0_r in *. simpl (between l 0). replace (dt / INR 1) with dt by (simpl; lra).
      destruct (plan_view_here _ _ _ _ _ _ Hp) as [[Hs _]|[_ ->]].
      + unfold static in Hs. destruct (Nat.ltb_spec (S l) n); [discriminate|lia].
      + simpl. rewrite app_nil_r. reflexivity.
    - destruct finer as [|f]; destruct Hp as [[Hs ->]|Hp]; try easy.
      + unfold static in Hs. destruct (Nat.ltb_spec (S l) n); [discriminate|lia].
      + unfold static in Hs. destruct (Nat.ltb_spec (S l) n); [discriminate|lia].
      + destruct Hp as (_ & parts & Hlen & Hparts & ->).
        rewrite !pair_view_cons, pair_view_app, (tail_view_other (l + S k) l) by lia.
        cbn [pair_view1]. destruct (Nat.eqb_spec (S l) (S (l + S k))); [lia|]. cbn [andb app]. rewrite app_nil_r.
        rewrite (pair_view_concat _ (refined_block (ratio (S (l + S k))) (dt / INR (between l (S k)))) (between (S l) k)).
        * rewrite Hlen. reflexivity.
        * intros p Hp. apply In_nth_error in Hp as [r Hr].
          replace (l + S k)%nat with (S l + k)%nat in * by lia.
          rewrite (IH _ _ _ _ _ (Hparts _ _ Hr)) by lia. rewrite between_div. reflexivity.
  Qed.
End Read.

Lemma fills_sizes : forall l fills, (forall e, In e fills -> exists j, e = Fill j) -> step_sizes l fills = [].
Proof.
  induction fills as [|e f IH]; intros H; simpl; auto.
  destruct (H e (or_introl eq_refl)) as [j ->]. apply IH. intros; apply H; simpl; auto.
Qed.
Lemma fills_view : forall l fills, (forall e, In e fills -> exists j, e = Fill j) -> pair_view l fills = [].
Proof.
  induction fills as [|e f IH]; intros H; simpl; auto.
  destruct (H e (or_introl eq_refl)) as [j ->]. apply IH. intros; apply H; simpl; auto.
Qed.

Lemma fixed_is_finer : forall W (I : Integrator W), fixed_levels I -> regrids_finer_levels I.
Proof.
  intros W I (Hp & H). split; auto. intros l dt s w j _. rewrite Hp. tauto.
Qed.

(** ** The statements *)
Section Statements.
  Context {W : Type}.
  Variable I : Integrator W.
  Variables max fr : nat.
  Hypothesis ratios_positive : forall l, (1 <= ratio_to_coarser I l)%nat.
  Hypothesis bounded : forall w, (num_levels I w <= max)%nat.
  Notation rp := (ratio_product (ratio_to_coarser I)).

  Lemma product_between0 : forall k, between I 0 k = rp k.
  Proof. intros k. pose proof (between_product I k 0) as H. simpl in H. lia. Qed.

  Lemma static_shape : fixed_levels I -> forall dt w lg w', (0 < num_levels I w)%nat ->
    advance_hierarchy_subcycle (observed I) max fr dt ([], w) = ((lg, w'), None) ->
    exists evs fills, lg = evs ++ fills /\ (forall e, In e fills -> exists j, e = Fill j) /\
      plan I (static (num_levels I w)) (max - 1) 0 dt (0, 1)%nat evs.
  Proof.
    intros Hf dt w lg w' Hn H.
    destruct (hierarchy_log I max fr dt [] w _ H) as [x1 Hx].
    destruct (advance_level (observed I) (max - 1) 0 dt (0, 1)%nat ([], w)) as [[lg1 w1] r1] eqn:E.
    simpl in Hx. destruct Hx as (-> & <- & fills & -> & Hfills & _).
    pose proof (bounded w) as Hb.
    destruct (advance_plan I (static (num_levels I w)) max bounded (fixed_is_finer _ _ Hf)
      (fun v => num_levels I v = num_levels I w)) with (finer := (max - 1)%nat) (l := 0%nat) (dt := dt)
      (sub := (0, 1)%nat) (lg := @nil event) (w := w) (out := ((lg1, w1), @None TimeStepTooLarge))
      as (_ & _ & Hp); auto.
    - intros l d s v Hv. destruct Hf as [Hp _]. rewrite Hp. auto.
    - intros v v' H1 H2. congruence.
    - intros l v Hv. unfold static. rewrite Hv. reflexivity.
    - lia.
    - destruct (Hp eq_refl) as (evs & Hl & Hplan). simpl in Hl. subst lg1. exists evs, fills. auto.
  Qed.

  Lemma C12_lemma : fixed_levels I -> forall dt w lg w', (0 < num_levels I w)%nat ->
    advance_hierarchy_subcycle (observed I) max fr dt ([], w) = ((lg, w'), None) ->
    forall l, (l < num_levels I w)%nat ->
      step_sizes l lg = repeat (dt / INR (rp l)) (rp l) /\ total (step_sizes l lg) = dt.
  Proof.
    intros Hf dt w lg w' Hn H l Hl.
    destruct (static_shape Hf _ _ _ _ Hn H) as (evs & fills & -> & Hfills & Hplan).
    assert (Hs : step_sizes l (evs ++ fills) = repeat (dt / INR (rp l)) (rp l)).
    { rewrite step_sizes_app, (fills_sizes _ _ Hfills), app_nil_r.
      change (step_sizes l evs) with (step_sizes (0 + l) evs).
      rewrite (plan_sizes I ratios_positive _ _ _ _ _ _ _ Hplan) by (simpl; lia).
      rewrite product_between0. reflexivity. }
    split; auto. rewrite Hs, total_repeat.
    assert (INR (rp l) <> 0) by (apply not_0_INR; pose proof (ratio_product_pos _ l ratios_positive); lia).
    field. auto.
  Qed.

  Lemma C12_no_other_lemma : fixed_levels I -> forall dt w lg w', (0 < num_levels I w)%nat ->
    advance_hierarchy_subcycle (observed I) max fr dt ([], w) = ((lg, w'), None) ->
    forall l, (num_levels I w <= l)%nat -> step_sizes l lg = [].
  Proof.
    intros Hf dt w lg w' Hn H l Hl.
    destruct (static_shape Hf _ _ _ _ Hn H) as (evs & fills & -> & Hfills & Hplan).
    rewrite step_sizes_app, (fills_sizes _ _ Hfills), app_nil_r.
    eapply plan_sizes_above; eauto.
  Qed.

  Lemma C15_lemma : fixed_levels I -> forall dt w lg w', (0 < num_levels I w)%nat ->
    advance_hierarchy_subcycle (observed I) max fr dt ([], w) = ((lg, w'), None) ->
    forall l, (S l < num_levels I w)%nat ->
      pair_view l lg =
        concat (repeat (refined_block (ratio_to_coarser I (S l)) (dt / INR (rp l))) (rp l)).
  Proof.
    intros Hf dt w lg w' Hn H l Hl.
    destruct (static_shape Hf _ _ _ _ Hn H) as (evs & fills & -> & Hfills & Hplan).
    rewrite pair_view_app, (fills_view _ _ Hfills), app_nil_r.
    pose proof (plan_view_static I ratios_positive _ l _ _ _ _ _ Hplan) as Hv.
    simpl in Hv. rewrite Hv by lia. rewrite product_between0. reflexivity.
  Qed.

  Lemma C15_dynamic_lemma : regrids_finer_levels I -> forall dt w lg w', (0 < num_levels I w)%nat ->
    advance_hierarchy_subcycle (observed I) max fr dt ([], w) = ((lg, w'), None) ->
    forall l, exists blocks, pair_view l lg = concat blocks /\ (length blocks <= rp l)%nat /\
      Forall (fun b => b = unrefined_block (dt / INR (rp l)) \/
                       b = refined_block (ratio_to_coarser I (S l)) (dt / INR (rp l))) blocks.
  Proof.
    intros Hf dt w lg w' Hn H l.
    destruct (hierarchy_log I max fr dt [] w _ H) as [x1 Hx].
    destruct (advance_level (observed I) (max - 1) 0 dt (0, 1)%nat ([], w)) as [[lg1 w1] r1] eqn:E.
    simpl in Hx. destruct Hx as (-> & <- & fills & -> & Hfills & _).
    pose proof (bounded w) as Hb.
    destruct (advance_plan I (fun _ _ => True) max bounded Hf
      (fun v => True)) with (finer := (max - 1)%nat) (l := 0%nat) (dt := dt)
      (sub := (0, 1)%nat) (lg := @nil event) (w := w) (out := ((lg1, w1), @None TimeStepTooLarge))
      as (_ & _ & Hp); auto; [lia|].
    destruct (Hp eq_refl) as (evs & Hl & Hplan). simpl in Hl. subst lg1.
    rewrite pair_view_app, (fills_view _ _ Hfills), app_nil_r.
    pose proof (plan_view_blocks I ratios_positive _ l _ _ _ _ _ Hplan) as Hv.
    rewrite product_between0 in Hv. exact Hv.
  Qed.

  Lemma C14_lemma : forall dt w lg w' e',
    advance_hierarchy_subcycle (observed I) max fr dt ([], w) = ((lg, w'), Some e') ->
    exists before x e, lg = before ++ [x] /\ failure x = Some e /\
      (forall y, In y before -> failure y = None) /\
      err_dt e' = err_dt e * INR (rp (err_level e)) /\ err_level e' = 0%nat.
  Proof.
    intros dt w lg w' e' H.
    destruct (hierarchy_log I max fr dt [] w _ H) as [x1 Hx].
    pose proof (report_advance I ratios_positive dt (max - 1) 0 dt (0, 1)%nat ([], w)) as HR.
    destruct (advance_level (observed I) (max - 1) 0 dt (0, 1)%nat ([], w)) as [[lg1 w1] r1] eqn:E.
    simpl in Hx. destruct Hx as (-> & <- & fills & -> & Hfills & Hnil).
    rewrite Hnil, app_nil_r by congruence.
    destruct HR as (evs & Hlg & _ & Hv); [simpl; lra|]. simpl in Hlg, Hv. subst lg1.
    destruct Hv as (pre & x & e & -> & Hok & Hx & ->).
    exists pre, x, e. repeat split; auto.
    - rewrite Forall_forall in Hok. apply Hok.
    - simpl. rewrite total_ratio_is_product. reflexivity.
  Qed.

  Lemma C14_success_lemma : forall dt w lg w',
    advance_hierarchy_subcycle (observed I) max fr dt ([], w) = ((lg, w'), None) ->
    forall y, In y lg -> failure y = None.
  Proof.
    intros dt w lg w' H.
    destruct (hierarchy_log I max fr dt [] w _ H) as [x1 Hx].
    pose proof (report_advance I ratios_positive dt (max - 1) 0 dt (0, 1)%nat ([], w)) as HR.
    destruct (advance_level (observed I) (max - 1) 0 dt (0, 1)%nat ([], w)) as [[lg1 w1] r1] eqn:E.
    simpl in Hx. destruct Hx as (-> & <- & fills & -> & Hfills & Hnil).
    destruct HR as (evs & Hlg & _ & Hv); [simpl; lra|]. simpl in Hlg, Hv. subst lg1.
    intros y Hy. apply in_app_or in Hy as [Hy|Hy].
    - rewrite Forall_forall in Hv. apply Hv; auto.
    - destruct (Hfills _ Hy) as [j ->]. reflexivity.
  Qed.

  (** Every step of level [l], in every run, successful or not, has the same size. *)
  Lemma every_step_size_lemma : forall dt w lg w' r,
    advance_hierarchy_subcycle (observed I) max fr dt ([], w) = ((lg, w'), r) ->
    forall l d sub o, In (Step l d sub o) lg \/ In (Post l d sub o) lg -> d = dt / INR (rp l).
  Proof.
    intros dt w lg w' r H l d sub o Hin.
    destruct (hierarchy_log I max fr dt [] w _ H) as [x1 Hx].
    pose proof (report_advance I ratios_positive dt (max - 1) 0 dt (0, 1)%nat ([], w)) as HR.
    destruct (advance_level (observed I) (max - 1) 0 dt (0, 1)%nat ([], w)) as [[lg1 w1] r1] eqn:E.
    simpl in Hx. destruct Hx as (-> & <- & fills & -> & Hfills & _).
    destruct HR as (evs & Hlg & Hs & _); [simpl; lra|]. simpl in Hlg. subst lg1.
    rewrite Forall_forall in Hs.
    destruct Hin as [Hin|Hin]; apply in_app_or in Hin as [Hin|Hin];
      try (destruct (Hfills _ Hin); discriminate); apply Hs in Hin; exact Hin.
  Qed.

  Lemma retry_lemma : forall d0 l0 w lg w' r,
    advance_hierarchy_subcycle (observed I) max fr (d0 * INR (rp l0)) ([], w) = ((lg, w'), r) ->
    forall d sub o, In (Step l0 d sub o) lg -> d = d0.
  Proof.
    intros d0 l0 w lg w' r H d sub o Hin.
    rewrite (every_step_size_lemma _ _ _ _ _ H l0 d sub o (or_introl Hin)).
    assert (INR (rp l0) <> 0) by (apply not_0_INR; pose proof (ratio_product_pos _ l0 ratios_positive); lia).
    field. auto.
  Qed.
End Statements.

(** ** Stable time steps *)
Lemma fold_min_le : forall (f : nat -> R) l a, fold_left (fun m x => Rmin m (f x)) l a <= a /\
  forall x, In x l -> fold_left (fun m x => Rmin m (f x)) l a <= f x.
Proof.
  intros f; induction l as [|y l IH]; intros a; simpl; [split; [lra|easy]|].
  destruct (IH (Rmin a (f y))) as [H1 H2]. split.
  - eapply Rle_trans; [exact H1|apply Rmin_l].
  - intros x [<-|Hx]; auto. eapply Rle_trans; [exact H1|apply Rmin_r].
Qed.

Lemma fold_min_ge : forall (f : nat -> R) l a d, d <= a -> (forall x, In x l -> d <= f x) ->
  d <= fold_left (fun m x => Rmin m (f x)) l a.
Proof.
  intros f; induction l as [|y l IH]; intros a d Ha H; simpl; auto.
  apply IH; [apply Rmin_glb; auto; apply H; simpl; auto|]. intros; apply H; simpl; auto.
Qed.

Lemma mpi_min_le : forall l a, mpi_min a l <= a /\ forall x, In x l -> mpi_min a l <= x.
Proof.
  unfold mpi_min. induction l as [|y l IH]; intros a; simpl; [split; [lra|easy]|].
  destruct (IH (Rmin a y)) as [H1 H2]. split.
  - eapply Rle_trans; [exact H1|apply Rmin_l].
  - intros x [<-|Hx]; auto. eapply Rle_trans; [exact H1|apply Rmin_r].
Qed.
Lemma mpi_min_ge : forall l a d, d <= a -> (forall x, In x l -> d <= x) -> d <= mpi_min a l.
Proof.
  unfold mpi_min. induction l as [|y l IH]; intros a d Ha H; simpl; auto.
  apply IH; [apply Rmin_glb; auto; apply H; simpl; auto|]. intros; apply H; simpl; auto.
Qed.

Section Stable.
  Context {W : Type}.
  Variable I : Integrator W.
  Hypothesis ratios_positive : forall l, (1 <= ratio_to_coarser I l)%nat.
  Notation rp := (ratio_product (ratio_to_coarser I)).

  Lemma rp_pos : forall l, 0 < INR (rp l).
  Proof. intros l. apply lt_0_INR. pose proof (ratio_product_pos _ l ratios_positive). lia. Qed.

  (** [ranks]: states of the other ranks. *)
  Lemma C13_iff : forall w others dt,
    dt <= mpi_min (subcycle_local_dt I w) (map (subcycle_local_dt I) others) <->
    dt <= dbl_max /\
    forall v l, In v (w :: others) -> (l < num_levels I v)%nat -> dt / INR (rp l) <= level_stable_dt I l v.
  Proof.
    intros w others dt. split.
    - intros H.
      assert (Hall : forall v, In v (w :: others) -> dt <= subcycle_local_dt I v).
      { destruct (mpi_min_le (map (subcycle_local_dt I) others) (subcycle_local_dt I w)) as [H1 H2].
        intros v [<-|Hv]; [lra|]. specialize (H2 (subcycle_local_dt I v) (in_map _ _ _ Hv)). lra. }
      split.
      + specialize (Hall w (or_introl eq_refl)).
        destruct (fold_min_le (fun l => INR (get_total_refine_ratio I l) * level_stable_dt I l w) (seq 0 (num_levels I w)) dbl_max) as [H1 _].
        unfold subcycle_local_dt in Hall. lra.
      + intros v l Hv Hl. specialize (Hall v Hv).
        destruct (fold_min_le (fun l => INR (get_total_refine_ratio I l) * level_stable_dt I l v) (seq 0 (num_levels I v)) dbl_max) as [_ H1].
        specialize (H1 l ltac:(apply in_seq; lia)).
        unfold subcycle_local_dt in Hall. rewrite total_ratio_is_product in H1.
        pose proof (rp_pos l).
        apply (Rmult_le_reg_l (INR (rp l))); auto.
        replace (INR (rp l) * (dt / INR (rp l))) with dt by (field; lra). lra.
    - intros [Hd H].
      assert (Hall : forall v, In v (w :: others) -> dt <= subcycle_local_dt I v).
      { intros v Hv. unfold subcycle_local_dt. apply fold_min_ge; auto.
        intros l Hl. apply in_seq in Hl. rewrite total_ratio_is_product.
        specialize (H v l Hv ltac:(lia)). pose proof (rp_pos l).
        apply (Rmult_le_compat_l (INR (rp l))) in H; [|lra].
        replace (INR (rp l) * (dt / INR (rp l))) with dt in H by (field; lra). lra. }
      apply mpi_min_ge; [apply Hall; simpl; auto|].
      intros x Hx. apply in_map_iff in Hx as (v & <- & Hv). apply Hall; simpl; auto.
  Qed.

  Lemma C13_nosub_iff : forall w others dt,
    dt <= mpi_min (nosub_local_dt I w) (map (nosub_local_dt I) others) <->
    dt <= dbl_max /\
    forall v l, In v (w :: others) -> (l < num_levels I v)%nat -> dt <= level_stable_dt I l v.
  Proof.
    intros w others dt. split.
    - intros H.
      assert (Hall : forall v, In v (w :: others) -> dt <= nosub_local_dt I v).
      { destruct (mpi_min_le (map (nosub_local_dt I) others) (nosub_local_dt I w)) as [H1 H2].
        intros v [<-|Hv]; [lra|]. specialize (H2 (nosub_local_dt I v) (in_map _ _ _ Hv)). lra. }
      split.
      + specialize (Hall w (or_introl eq_refl)).
        destruct (fold_min_le (fun l => level_stable_dt I l w) (seq 0 (num_levels I w)) dbl_max) as [H1 _].
        unfold nosub_local_dt in Hall. lra.
      + intros v l Hv Hl. specialize (Hall v Hv).
        destruct (fold_min_le (fun l => level_stable_dt I l v) (seq 0 (num_levels I v)) dbl_max) as [_ H1].
        specialize (H1 l ltac:(apply in_seq; lia)).
        unfold nosub_local_dt in Hall. lra.
    - intros [Hd H].
      assert (Hall : forall v, In v (w :: others) -> dt <= nosub_local_dt I v).
      { intros v Hv. unfold nosub_local_dt. apply fold_min_ge; auto.
        intros l Hl. apply in_seq in Hl. apply H; auto; lia. }
      apply mpi_min_ge; [apply Hall; simpl; auto|].
      intros x Hx. apply in_map_iff in Hx as (v & <- & Hv). apply Hall; simpl; auto.
  Qed.
End Stable.
