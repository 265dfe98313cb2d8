From Coq Require Import Reals List ZArith Lia Lra.
From Verif Require Import SplitModel RunModel RunSpec.
Import ListNotations.
Local Open Scope R_scope.

Lemma min3_spec a b c :
  min3 a b c <= a /\ min3 a b c <= b /\ min3 a b c <= c /\
  (min3 a b c = a \/ min3 a b c = b \/ min3 a b c = c).
Proof.
  unfold min3, Rmin. destruct (Rle_dec a b); destruct (Rle_dec _ c); lra.
Qed.

Section RunProofs.
  Context {Ou St : Type}.
  Variable sv : Solver St.
  Variable out : Output Ou St.
  Variable opts : RunOptions.

  Notation cfg := (config Ou St).
  Notation eps := (smallest_time_step_size opts).

  Lemma run_steps_inv (Inv : cfg -> status -> Prop) :
    (forall c p, Inv c p -> Inv (fst (step sv out opts c p)) (snd (step sv out opts c p))) ->
    forall n c p, Inv c p ->
    forall c' p', run_steps sv out opts n c p = (c', p') -> Inv c' p'.
  Proof.
    intros Hs. induction n as [|n IH]; intros c p HI c' p' Hr; simpl in Hr.
    - now inversion Hr; subst.
    - destruct (step sv out opts c p) as [c1 p1] eqn:E.
      apply (IH c1 p1); auto. specialize (Hs c p HI). now rewrite E in Hs.
  Qed.

  Lemma run_steps_add n m : forall c p,
    run_steps sv out opts (n + m) c p =
    let '(c', p') := run_steps sv out opts n c p in run_steps sv out opts m c' p'.
  Proof.
    induction n as [|n IH]; intros c p; simpl; [reflexivity|].
    destruct (step sv out opts c p) as [c1 p1]. apply IH.
  Qed.

  (** Story of one attempt *)
  Definition stable_of (c : cfg) : R :=
    match c_failure c with
    | Some d => d
    | None => fst (compute_stable_dt sv (pre_advance sv (c_solver c)))
    end.

  Definition prepared_of (c : cfg) : St :=
    match c_failure c with
    | Some d => pre_advance sv (c_solver c)
    | None => snd (compute_stable_dt sv (pre_advance sv (c_solver c)))
    end.

  Definition dt_of (c : cfg) : R :=
    min3 (final_time opts - c_time c) (next_output_time out (c_output c) (c_time c) - c_time c)
      (cfl opts * stable_of c).

  Lemma do_body_cases c :
    let nx := next_output_time out (c_output c) (c_time c) in
    let dt := dt_of c in
    (stable_of c <= eps /\ do_body sv out opts c = (c, AssertFailed)) \/
    (eps < stable_of c /\
     ((exists s3, advance_hierarchy sv dt (prepared_of c) = (s3, None) /\
       do_body sv out opts c =
         (mkConfig (post_advance sv dt s3) (c_output c)
            (solver_time sv (post_advance sv dt s3))
            (if do_backup opts then Some (post_advance sv dt s3) else c_backup c) None
            (c_trace c ++ [Accepted (c_solver c) nx dt (post_advance sv dt s3)]), AtDo)) \/
      (exists s3 e, advance_hierarchy sv dt (prepared_of c) = (s3, Some e) /\
       do_body sv out opts c =
         (if do_backup opts then
            match c_backup c with
            | Some b => (mkConfig b (c_output c) (c_time c) (c_backup c) (Some (err_dt e))
                           (c_trace c ++ [Failed (c_solver c) nx dt e]), AtDo)
            | None => (mkConfig s3 (c_output c) (c_time c) (c_backup c) (c_failure c)
                           (c_trace c ++ [Failed (c_solver c) nx dt e]), UndefinedBehaviour)
            end
          else (mkConfig s3 (c_output c) (c_time c) (c_backup c) (c_failure c)
                  (c_trace c ++ [Failed (c_solver c) nx dt e]), Returned))))).
  Proof.
    intros nx dt. unfold do_body, dt, dt_of, stable_of, prepared_of, nx.
    destruct (c_failure c) as [d|].
    - destruct (Rlt_dec eps d) as [Hd|Hd].
      + right. split; [exact Hd|].
        destruct (advance_hierarchy sv _ _) as [s3 [e|]] eqn:E.
        * right. exists s3, e. split; [reflexivity|].
          destruct (do_backup opts); [destruct (c_backup c)|]; reflexivity.
        * left. exists s3. split; reflexivity.
      + left. split; [lra|reflexivity].
    - destruct (compute_stable_dt sv (pre_advance sv (c_solver c))) as [d s2] eqn:Es. simpl.
      destruct (Rlt_dec eps d) as [Hd|Hd].
      + right. split; [exact Hd|].
        destruct (advance_hierarchy sv _ _) as [s3 [e|]] eqn:E.
        * right. exists s3, e. split; [reflexivity|].
          destruct (do_backup opts); [destruct (c_backup c)|]; reflexivity.
        * left. exists s3. split; reflexivity.
      + left. split; [lra|reflexivity].
  Qed.

  (** Continuation after the body *)
  Definition finish_do (c' : cfg) : cfg * status :=
    if do_cond sv out opts c' then (c', AtDo)
    else (mkConfig (c_solver c') (do_output out (c_output c') (c_solver c')) (c_time c')
            (c_backup c') (c_failure c')
            (c_trace c' ++ [Outputted (c_output c') (c_solver c')]), AtWhile).

  Lemma step_do_AtDo c c' : do_body sv out opts c = (c', AtDo) -> step sv out opts c AtDo = finish_do c'.
  Proof. intros H. unfold step. rewrite H. reflexivity. Qed.

  Lemma step_do_other c c' p : do_body sv out opts c = (c', p) -> p <> AtDo ->
    step sv out opts c AtDo = (c', p).
  Proof. intros H Hp. unfold step. rewrite H. destruct p; try reflexivity. congruence. Qed.

  Lemma while_cond_true (c : cfg) : while_cond sv opts c = true ->
    c_time c + eps < final_time opts /\
    (max_cycles opts < 0 \/ grid_cycles sv (c_solver c) < max_cycles opts)%Z.
  Proof.
    unfold while_cond. destruct (Rlt_dec _ _); simpl; [|discriminate].
    intros H. apply Bool.orb_true_iff in H. split; [assumption|].
    destruct H as [H|H]; apply Z.ltb_lt in H; auto.
  Qed.

  Lemma while_cond_false (c : cfg) : while_cond sv opts c = false ->
    final_time opts <= c_time c + eps \/
    (0 <= max_cycles opts <= grid_cycles sv (c_solver c))%Z.
  Proof.
    unfold while_cond. destruct (Rlt_dec _ _); simpl; [|intros _; left; lra].
    intros H. apply Bool.orb_false_iff in H. destruct H as [H1 H2].
    apply Z.ltb_ge in H1, H2. right. lia.
  Qed.

  Lemma do_cond_true c : do_cond sv out opts c = true ->
    c_time c + eps < final_time opts /\
    (max_cycles opts < 0 \/ solver_cycles sv (c_solver c) < max_cycles opts)%Z /\
    shall_output_now out (c_output c) (c_solver c) = false.
  Proof.
    unfold do_cond. destruct (Rlt_dec _ _); simpl; [|discriminate].
    intros H. apply Bool.andb_true_iff in H. destruct H as [H1 H2]. apply Bool.orb_true_iff in H1.
    split; [assumption|]. split.
    - destruct H1 as [H|H]; apply Z.ltb_lt in H; auto.
    - now apply Bool.negb_true_iff.
  Qed.

  Lemma do_cond_false c : do_cond sv out opts c = false ->
    final_time opts <= c_time c + eps \/
    (0 <= max_cycles opts <= solver_cycles sv (c_solver c))%Z \/
    shall_output_now out (c_output c) (c_solver c) = true.
  Proof.
    unfold do_cond. destruct (Rlt_dec _ _); simpl; [|intros _; left; lra].
    intros H. apply Bool.andb_false_iff in H. destruct H as [H|H].
    - apply Bool.orb_false_iff in H. destruct H as [H1 H2].
      apply Z.ltb_ge in H1, H2. right; left. lia.
    - right; right. now apply Bool.negb_false_iff.
  Qed.

  (** ** Invariant for clocks and step sizes (any backup mode) *)

  Definition live (p : status) : Prop := p = AtWhile \/ p = AtDo \/ p = Finished.

  Definition attempt_ok (tr1 : list (event Ou St)) (b : St) (nx dt : R) : Prop :=
    solver_time sv b + eps < final_time opts /\
    (max_cycles opts < 0 \/ solver_cycles sv b < max_cycles opts)%Z /\
    (exists o, nx = next_output_time out o (solver_time sv b)) /\
    (exists d, d = match pending tr1 with
                   | Some d => d
                   | None => fst (compute_stable_dt sv (pre_advance sv b))
                   end /\ eps < d /\
       dt = min3 (final_time opts - solver_time sv b) (nx - solver_time sv b) (cfl opts * d)).

  Definition Inv1 (c : cfg) (p : status) : Prop :=
    (live p -> c_time c = solver_time sv (c_solver c) /\ c_failure c = pending (c_trace c)) /\
    (do_backup opts = true -> live p -> c_backup c = Some (c_solver c)) /\
    (p = AtDo -> c_time c + eps < final_time opts /\
       (max_cycles opts < 0 \/ solver_cycles sv (c_solver c) < max_cycles opts)%Z) /\
    (forall tr1 x tr2 b nx dt, c_trace c = tr1 ++ x :: tr2 -> is_attempt x b nx dt ->
       attempt_ok tr1 b nx dt) /\
    (forall b nx dt a, In (Accepted b nx dt a) (c_trace c) -> good_step sv b dt a).

  Lemma pending_from_app acc (t1 t2 : list (event Ou St)) :
    pending_from acc (t1 ++ t2) = pending_from (pending_from acc t1) t2.
  Proof. revert acc. induction t1 as [|[] t1 IH]; intros acc; simpl; auto. Qed.

  Lemma pending_app (t1 t2 : list (event Ou St)) : pending (t1 ++ t2) = pending_from (pending t1) t2.
  Proof. apply pending_from_app. Qed.

  Lemma snoc_split {A} (l : list A) y tr1 x tr2 : l ++ [y] = tr1 ++ x :: tr2 ->
    (exists tr2', tr2 = tr2' ++ [y] /\ l = tr1 ++ x :: tr2') \/ (tr2 = [] /\ x = y /\ tr1 = l).
  Proof.
    intros H. destruct tr2 as [|z tr2] using rev_ind.
    - right. apply app_inj_tail in H. destruct H; auto.
    - left. exists tr2. rewrite app_comm_cons, app_assoc in H. apply app_inj_tail in H.
      destruct H; subst. auto.
  Qed.

  Hypothesis clock : clock_solver sv.

  Lemma Inv1_extend c tr' y :
    (forall tr1 x tr2 b nx dt, c_trace c = tr1 ++ x :: tr2 -> is_attempt x b nx dt ->
       attempt_ok tr1 b nx dt) ->
    tr' = c_trace c ++ [y] ->
    (forall b nx dt, is_attempt y b nx dt -> attempt_ok (c_trace c) b nx dt) ->
    (forall tr1 x tr2 b nx dt, tr' = tr1 ++ x :: tr2 -> is_attempt x b nx dt ->
       attempt_ok tr1 b nx dt).
  Proof.
    intros H -> Hy tr1 x tr2 b nx dt Heq Hx. apply snoc_split in Heq.
    destruct Heq as [(tr2' & -> & Hl)|(-> & -> & ->)]; eauto.
  Qed.

  Lemma good_step_of c s3 : advance_hierarchy sv (dt_of c) (prepared_of c) = (s3, None) ->
    good_step sv (c_solver c) (dt_of c) (post_advance sv (dt_of c) s3).
  Proof.
    intros H. exists (prepared_of c), s3. split; [|auto].
    unfold prepared_of. destruct (c_failure c); auto.
  Qed.

  Lemma Inv1_finish c' :
    c_time c' = solver_time sv (c_solver c') -> c_failure c' = pending (c_trace c') ->
    (do_backup opts = true -> c_backup c' = Some (c_solver c')) ->
    (forall tr1 x tr2 b nx dt, c_trace c' = tr1 ++ x :: tr2 -> is_attempt x b nx dt ->
       attempt_ok tr1 b nx dt) ->
    (forall b nx dt a, In (Accepted b nx dt a) (c_trace c') -> good_step sv b dt a) ->
    Inv1 (fst (finish_do c')) (snd (finish_do c')).
  Proof.
    intros H1 H2 H3 H4 H5. unfold finish_do. destruct (do_cond sv out opts c') eqn:E; simpl.
    - apply do_cond_true in E. destruct E as (E1 & E2 & E3).
      unfold Inv1. split; [auto|]. split; [auto|]. split; [auto|]. split; auto.
    - unfold Inv1; simpl. split; [|split; [|split; [|split]]].
      + intros _. split; auto. rewrite pending_app. simpl. exact H2.
      + auto.
      + discriminate.
      + eapply Inv1_extend; eauto. intros b nx dt [[a Ha]|[e He]]; discriminate.
      + intros b nx dt a Hin. apply in_app_or in Hin. destruct Hin as [Hin|[Hin|[]]]; eauto. discriminate.
  Qed.

  Lemma Inv1_step c p : Inv1 c p -> Inv1 (fst (step sv out opts c p)) (snd (step sv out opts c p)).
  Proof.
    intros (I1 & I2 & I3 & I4 & I5). destruct p; try (simpl; exact (conj I1 (conj I2 (conj I3 (conj I4 I5))))).
    - (* AtWhile *)
      destruct (I1 (or_introl eq_refl)) as [It If].
      unfold step. destruct (while_cond sv opts c) eqn:E; simpl.
      + apply while_cond_true in E. destruct E as [E1 E2].
        destruct clock as (_ & Hc & _). rewrite Hc in E2.
        unfold Inv1. split; [auto|]. split; [|split; [auto|split; auto]].
        intros Hb _. apply I2; auto. now left.
      + unfold Inv1. split; [auto|]. split; [|split; [discriminate|split; auto]].
        intros Hb _. apply I2; auto. now left.
    - (* AtDo *)
      destruct (I1 (or_intror (or_introl eq_refl))) as [It If].
      destruct (I3 eq_refl) as [Itime Icyc].
      pose proof (fun H => I2 H (or_intror (or_introl eq_refl))) as Ib.
      assert (Hatt : forall b nx dt, eps < stable_of c ->
        b = c_solver c -> nx = next_output_time out (c_output c) (c_time c) -> dt = dt_of c ->
        attempt_ok (c_trace c) b nx dt).
      { intros b nx dt Hst -> -> ->. unfold attempt_ok. rewrite <- It.
        split; [assumption|]. split; [assumption|]. split; [eauto|].
        exists (stable_of c). unfold stable_of, dt_of. rewrite <- If. split; [reflexivity|].
        unfold stable_of in Hst. split; [exact Hst|]. reflexivity. }
      destruct (do_body_cases c) as [(Hs & Hb)|(Hs & [(s3 & Ha & Hb)|(s3 & e & Ha & Hb)])].
      + erewrite step_do_other; [|exact Hb|discriminate]. simpl.
        unfold Inv1. split; [auto|]. split; [auto|]. split; [discriminate|]. split; auto.
      + erewrite step_do_AtDo by exact Hb. apply Inv1_finish; simpl.
        * reflexivity.
        * now rewrite pending_app.
        * intros ->. reflexivity.
        * eapply Inv1_extend; eauto. intros b nx dt Hx.
          destruct Hx as [[a Hx]|[e Hx]]; [|discriminate].
          inversion Hx; subst. apply Hatt; auto.
        * intros b nx dt a Hin. apply in_app_or in Hin. destruct Hin as [Hin|[Hin|[]]]; eauto.
          inversion Hin; subst. now apply good_step_of.
      + assert (Hx : forall tr1 x tr2 b nx dt,
          c_trace c ++ [Failed (c_solver c) (next_output_time out (c_output c) (c_time c)) (dt_of c) e]
            = tr1 ++ x :: tr2 -> is_attempt x b nx dt -> attempt_ok tr1 b nx dt).
        { eapply Inv1_extend; eauto. intros b nx dt Hx.
          destruct Hx as [[a Hx]|[e' Hx]]; [discriminate|].
          inversion Hx; subst. apply Hatt; auto. }
        assert (Hg : forall b nx dt a, In (Accepted b nx dt a)
            (c_trace c ++ [Failed (c_solver c) (next_output_time out (c_output c) (c_time c)) (dt_of c) e])
            -> good_step sv b dt a).
        { intros b nx dt a Hin. apply in_app_or in Hin. destruct Hin as [Hin|[Hin|[]]]; eauto. discriminate. }
        destruct (do_backup opts) eqn:Hdb.
        * rewrite (Ib eq_refl) in Hb.
          erewrite step_do_AtDo by exact Hb. apply Inv1_finish; simpl; auto.
          now rewrite pending_app.
        * erewrite step_do_other; [|exact Hb|discriminate]. simpl.
          unfold Inv1; simpl. split; [|split; [|split; [|split; [exact Hx|exact Hg]]]].
          -- intros [H|[H|H]]; discriminate.
          -- intros _ [H|[H|H]]; discriminate.
          -- discriminate.
  Qed.

  Lemma Inv1_start s o : Inv1 (start sv opts s o) AtWhile.
  Proof.
    unfold Inv1, start; simpl. split; [|split; [|split; [|split]]].
    - intros _. split; [apply clock|reflexivity].
    - intros -> _. reflexivity.
    - discriminate.
    - intros tr1 x tr2 b nx dt H. destruct tr1; discriminate.
    - intros b nx dt a [].
  Qed.

  Lemma Inv1_run n s o c p : run_simulation sv out opts n s o = (c, p) -> Inv1 c p.
  Proof.
    unfold run_simulation. intros H. eapply run_steps_inv; eauto using Inv1_step, Inv1_start.
  Qed.

  Lemma C05_lemma :
    future_output out -> 0 < cfl opts -> 0 <= eps ->
    forall n s o c p, run_simulation sv out opts n s o = (c, p) ->
    forall b nx dt a, In (Accepted b nx dt a) (c_trace c) ->
      0 < dt /\
      solver_time sv a = solver_time sv b + dt /\
      solver_time sv a <= final_time opts /\
      (exists o', nx = next_output_time out o' (solver_time sv b)) /\
      solver_time sv a <= nx /\
      (max_cycles opts < 0 \/ solver_cycles sv b < max_cycles opts)%Z.
  Proof.
    intros Hfut Hcfl Heps n s o c p Hrun b nx dt a Hin.
    destruct (Inv1_run _ _ _ _ _ Hrun) as (_ & _ & _ & I4 & I5).
    apply in_split in Hin as Hsp. destruct Hsp as (tr1 & tr2 & Htr).
    destruct (I4 _ _ _ b nx dt Htr (or_introl (ex_intro _ a eq_refl))) as (Ht & Hc & (o' & Ho') & (d & _ & Hd & Hdt)).
    destruct (min3_spec (final_time opts - solver_time sv b) (nx - solver_time sv b) (cfl opts * d))
      as (M1 & M2 & M3 & M4). rewrite <- Hdt in *.
    assert (Hp : 0 < cfl opts * d) by (apply Rmult_lt_0_compat; lra).
    pose proof (Hfut o' (solver_time sv b)) as Hf. rewrite <- Ho' in Hf.
    destruct (I5 _ _ _ _ Hin) as (pr & s' & Hpr & Hadv & Ha).
    destruct clock as (_ & _ & Hclk).
    assert (Hta : solver_time sv a = solver_time sv b + dt) by (subst a; eapply Hclk; eauto).
    repeat split; eauto; try lra.
  Qed.

  Lemma C06_step_size_lemma :
    forall n s o c p, run_simulation sv out opts n s o = (c, p) ->
    forall tr1 x tr2 b nx dt, c_trace c = tr1 ++ x :: tr2 -> is_attempt x b nx dt ->
    exists d, d = match pending tr1 with
                  | Some e => e
                  | None => fst (compute_stable_dt sv (pre_advance sv b))
                  end /\ eps < d /\
      dt <= cfl opts * d /\ dt <= final_time opts - solver_time sv b /\ dt <= nx - solver_time sv b /\
      (dt = cfl opts * d \/ dt = final_time opts - solver_time sv b \/ dt = nx - solver_time sv b).
  Proof.
    intros n s o c p Hrun tr1 x tr2 b nx dt Htr Hx.
    destruct (Inv1_run _ _ _ _ _ Hrun) as (_ & _ & _ & I4 & I5).
    destruct (I4 _ _ _ _ _ _ Htr Hx) as (Ht & Hc & Ho & (d & Hd & He & Hdt)).
    exists d. split; [exact Hd|]. split; [exact He|].
    destruct (min3_spec (final_time opts - solver_time sv b) (nx - solver_time sv b) (cfl opts * d))
      as (M1 & M2 & M3 & M4). rewrite <- Hdt in *. repeat split; auto. tauto.
  Qed.

  (** ** Stories *)

  Lemma story_app s tr1 s1 tr2 s2 :
    story sv s tr1 s1 -> story sv s1 tr2 s2 -> story (Ou := Ou) sv s (tr1 ++ tr2) s2.
  Proof.
    revert s. induction tr1 as [|[b nx dt a|b nx dt e|o x] tr1 IH]; intros s H1 H2; simpl in *.
    - now subst.
    - destruct H1 as (-> & Hg & H1). eauto.
    - destruct H1 as (-> & H1). eauto.
    - destruct H1 as (-> & H1). eauto.
  Qed.

  Definition Inv2 (s0 : St) (c : cfg) (p : status) : Prop :=
    story sv s0 (c_trace c) (c_solver c) /\
    c_backup c = Some (c_solver c) /\ p <> Returned /\ p <> UndefinedBehaviour.

  Lemma Inv2_finish s0 c' : story sv s0 (c_trace c') (c_solver c') ->
    c_backup c' = Some (c_solver c') ->
    Inv2 s0 (fst (finish_do c')) (snd (finish_do c')).
  Proof.
    intros H1 H2. unfold finish_do, Inv2. destruct (do_cond sv out opts c'); simpl.
    - repeat split; auto; discriminate.
    - split; [|repeat split; auto; discriminate].
      eapply story_app; eauto. simpl. auto.
  Qed.

  Lemma Inv2_step s0 c p : do_backup opts = true -> Inv2 s0 c p ->
    Inv2 s0 (fst (step sv out opts c p)) (snd (step sv out opts c p)).
  Proof.
    intros Hdb (I1 & I2 & I3 & I4). destruct p; try congruence;
      try (simpl; unfold Inv2; repeat split; auto; discriminate).
    - unfold step. destruct (while_cond sv opts c); simpl; unfold Inv2; repeat split; auto; discriminate.
    - destruct (do_body_cases c) as [(Hs & Hb)|(Hs & [(s3 & Ha & Hb)|(s3 & e & Ha & Hb)])].
      + erewrite step_do_other; [|exact Hb|discriminate]. simpl.
        unfold Inv2. repeat split; auto; discriminate.
      + erewrite step_do_AtDo by exact Hb. rewrite Hdb in *. apply Inv2_finish; simpl; auto.
        eapply story_app; eauto. simpl. split; [reflexivity|]. split; [|reflexivity].
        now apply good_step_of.
      + rewrite Hdb, I2 in Hb. erewrite step_do_AtDo by exact Hb. apply Inv2_finish; simpl; auto.
        eapply story_app; eauto. simpl. auto.
  Qed.

  Lemma C06_lemma : do_backup opts = true ->
    forall n s o c p, run_simulation sv out opts n s o = (c, p) ->
    story sv s (c_trace c) (c_solver c) /\ p <> Returned /\ p <> UndefinedBehaviour.
  Proof.
    intros Hdb n s o c p Hrun.
    assert (H : Inv2 s c p).
    { unfold run_simulation in Hrun.
      eapply (run_steps_inv (Inv2 s)); [| |exact Hrun].
      - intros. now apply Inv2_step.
      - unfold Inv2, start. rewrite Hdb. simpl. repeat split; auto; discriminate. }
    destruct H as (H1 & H2 & H3 & H4). auto.
  Qed.

  (** ** No backup *)

  Definition no_failed (tr : list (event Ou St)) : Prop := forall x, In x tr -> is_failed x = false.

  Definition Inv3 (c : cfg) (p : status) : Prop :=
    (p <> Returned /\ no_failed (c_trace c)) \/
    (p = Returned /\ exists tr f, c_trace c = tr ++ [f] /\ is_failed f = true /\ no_failed tr).

  Lemma no_failed_snoc tr x : no_failed tr -> is_failed x = false -> no_failed (tr ++ [x]).
  Proof. intros H Hx y Hy. apply in_app_or in Hy. destruct Hy as [Hy|[<-|[]]]; auto. Qed.

  Lemma Inv3_step c p : do_backup opts = false -> Inv3 c p ->
    Inv3 (fst (step sv out opts c p)) (snd (step sv out opts c p)).
  Proof.
    intros Hdb HI. destruct p; try (simpl; exact HI).
    - unfold step. destruct HI as [[_ H]|[H _]]; [|discriminate].
      destruct (while_cond sv opts c); simpl; left; split; auto; discriminate.
    - destruct HI as [[_ H]|[H _]]; [|discriminate].
      destruct (do_body_cases c) as [(Hs & Hb)|(Hs & [(s3 & Ha & Hb)|(s3 & e & Ha & Hb)])].
      + erewrite step_do_other; [|exact Hb|discriminate]. simpl. left. split; auto; discriminate.
      + erewrite step_do_AtDo by exact Hb. unfold finish_do. left.
        match goal with |- context [do_cond _ _ _ ?c0] => destruct (do_cond sv out opts c0) end; simpl;
          split; try discriminate; repeat apply no_failed_snoc; auto.
      + rewrite Hdb in Hb. erewrite step_do_other; [|exact Hb|discriminate]. simpl. right. split; auto.
        eexists _, _. split; [reflexivity|]. split; auto.
  Qed.

  Lemma C07_lemma : do_backup opts = false ->
    forall n s o c p, run_simulation sv out opts n s o = (c, p) ->
    (exists x, In x (c_trace c) /\ is_failed x = true) ->
    p = Returned /\
    (exists tr f, c_trace c = tr ++ [f] /\ is_failed f = true /\
       (forall x, In x tr -> is_failed x = false)) /\
    (forall m, run_simulation sv out opts (n + m) s o = (c, p)).
  Proof.
    intros Hdb n s o c p Hrun (x & Hin & Hx).
    assert (H : Inv3 c p).
    { unfold run_simulation in Hrun. eapply (run_steps_inv Inv3); [| |exact Hrun].
      - intros. now apply Inv3_step.
      - left. split; [discriminate|]. intros y []. }
    destruct H as [[_ H]|[-> H]].
    - rewrite (H x Hin) in Hx. discriminate.
    - split; [reflexivity|]. split; [exact H|]. intros m.
      unfold run_simulation in *. rewrite run_steps_add, Hrun.
      induction m as [|m IH]; [reflexivity|]. simpl. exact IH.
  Qed.

  (** ** Outputs *)

  Definition due (o : Ou) (s : St) : Prop :=
    shall_output_now out o s = true \/ final_time opts <= solver_time sv s + eps \/
    (0 <= max_cycles opts <= solver_cycles sv s)%Z.

  Lemma due_step c p : Inv1 c p ->
    (forall o s, In (Outputted o s) (c_trace c) -> due o s) ->
    (forall o s, In (Outputted o s) (c_trace (fst (step sv out opts c p))) -> due o s).
  Proof.
    intros I1 H.
    assert (F : forall c', c_time c' = solver_time sv (c_solver c') ->
      (forall o s, In (Outputted o s) (c_trace c') -> due o s) ->
      forall o s, In (Outputted o s) (c_trace (fst (finish_do c'))) -> due o s).
    { intros c' Ht H' o s. unfold finish_do. destruct (do_cond sv out opts c') eqn:E; simpl; auto.
      intros Hin. apply in_app_or in Hin. destruct Hin as [Hin|[Hin|[]]]; auto.
      inversion Hin; subst. apply do_cond_false in E. rewrite Ht in E. unfold due. tauto. }
    destruct p; try (simpl; exact H).
    - unfold step. destruct (while_cond sv opts c); simpl; exact H.
    - destruct I1 as (It & Ib & _). destruct (It (or_intror (or_introl eq_refl))) as [Ht _].
      pose proof (fun H => Ib H (or_intror (or_introl eq_refl))) as Ibk. clear It Ib.
      destruct (do_body_cases c) as [(Hs & Hb)|(Hs & [(s3 & Ha & Hb)|(s3 & e & Ha & Hb)])].
      + erewrite step_do_other; [|exact Hb|discriminate]. simpl. exact H.
      + erewrite step_do_AtDo by exact Hb. apply F; simpl; auto.
        intros o s Hin. apply in_app_or in Hin. destruct Hin as [Hin|[Hin|[]]]; auto. discriminate.
      + destruct (do_backup opts).
        * rewrite (Ibk eq_refl) in Hb. erewrite step_do_AtDo by exact Hb. apply F; simpl; auto.
          intros o s Hin. apply in_app_or in Hin. destruct Hin as [Hin|[Hin|[]]]; auto. discriminate.
        * erewrite step_do_other; [|exact Hb|discriminate]. simpl.
          intros o s Hin. apply in_app_or in Hin. destruct Hin as [Hin|[Hin|[]]]; auto. discriminate.
  Qed.

  Lemma C08_due_lemma :
    forall n s o c p, run_simulation sv out opts n s o = (c, p) ->
    forall o' x, In (Outputted o' x) (c_trace c) ->
      shall_output_now out o' x = true \/ final_time opts <= solver_time sv x + eps \/
      (0 <= max_cycles opts <= solver_cycles sv x)%Z.
  Proof.
    intros n s o c p Hrun. unfold run_simulation in Hrun.
    assert (H : Inv1 c p /\ forall o' x, In (Outputted o' x) (c_trace c) -> due o' x).
    { eapply (run_steps_inv (fun c p => Inv1 c p /\ forall o' x, In (Outputted o' x) (c_trace c) -> due o' x));
        [| |exact Hrun].
      - intros c1 p1 [Ha Hb]. split; [now apply Inv1_step|now apply due_step].
      - split; [apply Inv1_start|]. intros o' x []. }
    apply H.
  Qed.

  (** ** Output times increase as long as no step fails *)

  Lemma output_times_app (t1 t2 : list (event Ou St)) :
    output_times sv (t1 ++ t2) = output_times sv t1 ++ output_times sv t2.
  Proof. induction t1 as [|[] t1 IH]; simpl; rewrite ?IH; auto. Qed.

  Lemma increasing_snoc l x : increasing l -> (forall y, In y l -> y < x) -> increasing (l ++ [x]).
  Proof.
    induction l as [|a l IH]; simpl; intros H Hx.
    - split; [intros b []|exact I].
    - destruct H as [H1 H2]. split.
      + intros b Hb. apply in_app_or in Hb. destruct Hb as [Hb|[<-|[]]]; auto.
      + apply IH; auto.
  Qed.

  Hypothesis fut : future_output out.
  Hypothesis Hcfl : 0 < cfl opts.
  Hypothesis Heps : 0 <= eps.

  (** [q = true]: the last event was an output, so an equal time is allowed at most once. *)
  Definition Inv4 (c : cfg) (p : status) : Prop :=
    Inv1 c p /\
    (no_failed (c_trace c) -> live p ->
       increasing (output_times sv (c_trace c)) /\
       forall y, In y (output_times sv (c_trace c)) -> y <= c_time c).

  Lemma dt_of_pos c : c_time c + eps < final_time opts -> eps < stable_of c -> 0 < dt_of c.
  Proof.
    intros H1 H2. unfold dt_of.
    destruct (min3_spec (final_time opts - c_time c)
      (next_output_time out (c_output c) (c_time c) - c_time c) (cfl opts * stable_of c))
      as (_ & _ & _ & M).
    pose proof (fut (c_output c) (c_time c)).
    assert (0 < cfl opts * stable_of c) by (apply Rmult_lt_0_compat; lra).
    lra.
  Qed.

  Lemma Inv4_step c p : Inv4 c p -> Inv4 (fst (step sv out opts c p)) (snd (step sv out opts c p)).
  Proof.
    intros [I1 I4]. split; [now apply Inv1_step|].
    destruct p; try (simpl; exact I4).
    - unfold step. destruct (while_cond sv opts c); simpl; intros Hn _; (apply I4; [exact Hn|now left]).
    - destruct I1 as (It & Ib & Id & _). destruct (It (or_intror (or_introl eq_refl))) as [Ht _].
      destruct (Id eq_refl) as [Htime _].
      pose proof (fun H => Ib H (or_intror (or_introl eq_refl))) as Ibk. clear It Ib Id.
      destruct (do_body_cases c) as [(Hs & Hb)|(Hs & [(s3 & Ha & Hb)|(s3 & e & Ha & Hb)])].
      + erewrite step_do_other; [|exact Hb|discriminate]. simpl. intros _ [H|[H|H]]; discriminate.
      + erewrite step_do_AtDo by exact Hb.
        assert (Hadv : c_time c < solver_time sv (post_advance sv (dt_of c) s3)).
        { destruct clock as (_ & _ & Hclk).
          rewrite (Hclk (c_solver c) (dt_of c) (prepared_of c) s3); [| |exact Ha].
          - rewrite <- Ht. pose proof (dt_of_pos c Htime Hs). lra.
          - unfold prepared_of. destruct (c_failure c); auto. }
        unfold finish_do.
        match goal with |- context [do_cond _ _ _ ?c0] => destruct (do_cond sv out opts c0) end; simpl;
        intros Hn _.
        * assert (Hn0 : no_failed (c_trace c)) by (intros x Hx; apply Hn; apply in_or_app; auto).
          destruct (I4 Hn0 (or_intror (or_introl eq_refl))) as [J1 J2].
          rewrite output_times_app. simpl. rewrite app_nil_r. split; auto.
          intros y Hy. apply J2 in Hy. lra.
        * assert (Hn0 : no_failed (c_trace c))
            by (intros x Hx; apply Hn; apply in_or_app; left; apply in_or_app; auto).
          destruct (I4 Hn0 (or_intror (or_introl eq_refl))) as [J1 J2].
          rewrite !output_times_app. simpl. rewrite app_nil_r. split.
          -- apply increasing_snoc; auto. intros y Hy. apply J2 in Hy. lra.
          -- intros y Hy. apply in_app_or in Hy. destruct Hy as [Hy|[<-|[]]]; [apply J2 in Hy|]; lra.
      + destruct (do_backup opts).
        * rewrite (Ibk eq_refl) in Hb. erewrite step_do_AtDo by exact Hb. unfold finish_do.
          match goal with |- context [do_cond _ _ _ ?c0] => destruct (do_cond sv out opts c0) end; simpl;
          intros Hn _; exfalso.
          -- eapply Bool.diff_true_false. rewrite <- (Hn (Failed (c_solver c) (next_output_time out (c_output c) (c_time c)) (dt_of c) e)); [reflexivity|].
             apply in_or_app. right. now left.
          -- eapply Bool.diff_true_false. rewrite <- (Hn (Failed (c_solver c) (next_output_time out (c_output c) (c_time c)) (dt_of c) e)); [reflexivity|].
             apply in_or_app. left. apply in_or_app. right. now left.
        * erewrite step_do_other; [|exact Hb|discriminate]. simpl. intros _ [H|[H|H]]; discriminate.
  Qed.

  Definition ended_well (c : cfg) (p : status) : Prop :=
    p = Finished -> final_time opts <= solver_time sv (c_solver c) + eps \/
      (0 <= max_cycles opts <= solver_cycles sv (c_solver c))%Z.

  Lemma C08_increasing_lemma :
    forall n s o c p, run_simulation sv out opts n s o = (c, p) ->
    p = AtWhile \/ p = AtDo \/ p = Finished ->
    (forall x, In x (c_trace c) -> is_failed x = false) ->
    increasing (output_times sv (c_trace c)).
  Proof.
    intros n s o c p Hrun Hp Hn. unfold run_simulation in Hrun.
    assert (H : Inv4 c p).
    { eapply (run_steps_inv Inv4); [apply Inv4_step| |exact Hrun].
      split; [apply Inv1_start|]. simpl. intros _ _. split; [exact I|]. intros y []. }
    destruct H as [_ H]. apply H; auto.
  Qed.

  (** ** The end of a run *)

  Definition Inv5 (s0 : St) (c : cfg) (p : status) : Prop :=
    ended_well c p /\
    (p = AtWhile \/ p = Finished ->
       c_trace c = [] /\ c_solver c = s0 \/ exists tr o, c_trace c = tr ++ [Outputted o (c_solver c)]).

  Lemma Inv5_step s0 c p : Inv1 c p -> Inv5 s0 c p ->
    Inv5 s0 (fst (step sv out opts c p)) (snd (step sv out opts c p)).
  Proof.
    intros I1 [E1 E2].
    assert (F : forall c', Inv5 s0 (fst (finish_do c')) (snd (finish_do c'))).
    { intros c'. unfold finish_do. destruct (do_cond sv out opts c'); simpl; split;
        try (intros [H|H]; discriminate); try (intros H; discriminate).
      simpl. intros _. right. eauto. }
    destruct p; try (simpl; exact (conj E1 E2)).
    - unfold step. destruct (while_cond sv opts c) eqn:E; simpl.
      + split; [intros H; discriminate|intros [H|H]; discriminate].
      + split; [|intros _; apply E2; now left].
        intros _. apply while_cond_false in E. destruct I1 as [It _].
        destruct (It (or_introl eq_refl)) as [Ht _]. rewrite Ht in E.
        destruct clock as (_ & Hc & _). rewrite Hc in E. exact E.
    - destruct (do_body_cases c) as [(Hs & Hb)|(Hs & [(s3 & Ha & Hb)|(s3 & e & Ha & Hb)])].
      + erewrite step_do_other; [|exact Hb|discriminate]. simpl.
        split; [intros H; discriminate|intros [H|H]; discriminate].
      + erewrite step_do_AtDo by exact Hb. apply F.
      + destruct (do_backup opts).
        * destruct (c_backup c).
          -- erewrite step_do_AtDo by exact Hb. apply F.
          -- erewrite step_do_other; [|exact Hb|discriminate]. simpl.
             split; [intros H; discriminate|intros [H|H]; discriminate].
        * erewrite step_do_other; [|exact Hb|discriminate]. simpl.
          split; [intros H; discriminate|intros [H|H]; discriminate].
  Qed.

  Lemma C08_end_lemma :
    forall n s o c, run_simulation sv out opts n s o = (c, Finished) ->
    (final_time opts <= solver_time sv (c_solver c) + eps \/
     (0 <= max_cycles opts <= solver_cycles sv (c_solver c))%Z) /\
    (c_trace c = [] /\ c_solver c = s \/
     exists tr o', c_trace c = tr ++ [Outputted o' (c_solver c)]).
  Proof.
    intros n s o c Hrun. unfold run_simulation in Hrun.
    assert (H : Inv1 c Finished /\ Inv5 s c Finished).
    { eapply (run_steps_inv (fun c p => Inv1 c p /\ Inv5 s c p)); [| |exact Hrun].
      - intros c1 p1 [Ha Hb]. split; [now apply Inv1_step|now apply Inv5_step].
      - split; [apply Inv1_start|]. split; [intros H; discriminate|]. intros _. left. auto. }
    destruct H as [_ [H1 H2]]. split; [apply H1; auto|apply H2; auto].
  Qed.

  (** ** Termination *)

  Variables delta gamma : R.
  Hypothesis Hdelta : eps < delta.
  Hypothesis Hgamma : 0 < gamma.
  Hypothesis honest : honest_solver sv (cfl opts) delta.
  Hypothesis far : forall o t, t + gamma <= next_output_time out o t.
  Hypothesis backup_on : do_backup opts = true.

  Let m := Rmin gamma (cfl opts * delta).

  Lemma m_pos : 0 < m.
  Proof.
    unfold m. apply Rmin_glb_lt; [assumption|]. apply Rmult_lt_0_compat; lra.
  Qed.

  Lemma dt_of_large c : delta <= stable_of c -> dt_of c = final_time opts - c_time c \/ m <= dt_of c.
  Proof.
    intros H. unfold dt_of.
    destruct (min3_spec (final_time opts - c_time c)
      (next_output_time out (c_output c) (c_time c) - c_time c) (cfl opts * stable_of c))
      as (_ & _ & _ & [M|[M|M]]); [left; exact M|right|right]; rewrite M; unfold m.
    - pose proof (far (c_output c) (c_time c)). pose proof (Rmin_l gamma (cfl opts * delta)). lra.
    - apply Rle_trans with (cfl opts * delta); [apply Rmin_r|]. apply Rmult_le_compat_l; lra.
  Qed.

  (** A state from which the run ends. *)
  Definition ends (c : cfg) (p : status) : Prop :=
    exists n, snd (run_steps sv out opts n c p) = Finished.

  Lemma ends_step c p : ends (fst (step sv out opts c p)) (snd (step sv out opts c p)) -> ends c p.
  Proof.
    intros [n H]. exists (S n). simpl. destruct (step sv out opts c p) as [c1 p1]. exact H.
  Qed.

  Lemma ends_time_up c : final_time opts <= c_time c + eps -> ends c AtWhile.
  Proof.
    intros H. exists 1%nat. simpl. unfold while_cond. destruct (Rlt_dec _ _); [lra|]. reflexivity.
  Qed.

  Definition reach (N : nat) : Prop := forall c p,
    Inv1 c p -> p = AtWhile \/ p = AtDo -> c_failure c = None ->
    final_time opts - c_time c <= INR N * m -> ends c p.

  (** After an accepted step the run continues closer to the end. *)
  Lemma after_accept N c s3 : reach N -> Inv1 c AtDo -> delta <= stable_of c ->
    final_time opts - c_time c <= INR (S N) * m ->
    advance_hierarchy sv (dt_of c) (prepared_of c) = (s3, None) -> ends c AtDo.
  Proof.
    intros HN HI Hst Hle Ha. pose proof (Inv1_step c AtDo HI) as HI'.
    apply ends_step.
    destruct HI as (It & _ & Id & _). destruct (It (or_intror (or_introl eq_refl))) as [Ht _].
    destruct (Id eq_refl) as [Htime _].
    destruct (do_body_cases c) as [(Hs & Hb)|(Hs & [(s3' & Ha' & Hb)|(s3' & e & Ha' & Hb)])];
      [lra| |congruence].
    rewrite Ha in Ha'. inversion Ha'; subst s3'. clear Ha'.
    assert (Hnew : solver_time sv (post_advance sv (dt_of c) s3) = c_time c + dt_of c).
    { destruct clock as (_ & _ & Hclk).
      rewrite (Hclk (c_solver c) (dt_of c) (prepared_of c) s3); [lra| |exact Ha].
      unfold prepared_of. destruct (c_failure c); auto. }
    assert (Hcase : final_time opts <= c_time c + dt_of c \/
      final_time opts - (c_time c + dt_of c) <= INR N * m).
    { destruct (dt_of_large c Hst) as [H|H]; [left; lra|right].
      rewrite S_INR in Hle. lra. }
    erewrite step_do_AtDo in * by exact Hb. unfold finish_do in *.
    match goal with |- context [do_cond _ _ _ ?c0] => set (c1 := c0) in *; destruct (do_cond sv out opts c1) eqn:Ec end;
      cbn [fst snd] in *.
    - destruct Hcase as [H|H].
      + apply do_cond_true in Ec. unfold c1 in Ec; simpl in Ec. lra.
      + apply HN; auto. unfold c1; simpl. rewrite Hnew. exact H.
    - destruct Hcase as [H|H].
      + apply ends_time_up. unfold c1; simpl. lra.
      + apply HN; auto. unfold c1; simpl. rewrite Hnew. exact H.
  Qed.

  (** With a pending failure the retry is accepted. *)
  Lemma retry_accepts N c e : reach N -> Inv1 c AtDo ->
    c_failure c = Some e -> delta <= e ->
    (forall dt', dt' <= cfl opts * e ->
       exists s'', advance_hierarchy sv dt' (pre_advance sv (c_solver c)) = (s'', None)) ->
    final_time opts - c_time c <= INR (S N) * m -> ends c AtDo.
  Proof.
    intros HN HI Hf He Hadv Hle.
    assert (Hst : stable_of c = e) by (unfold stable_of; now rewrite Hf).
    assert (Hpr : prepared_of c = pre_advance sv (c_solver c)) by (unfold prepared_of; now rewrite Hf).
    destruct (Hadv (dt_of c)) as [s'' Hs''].
    { unfold dt_of. rewrite Hst. apply min3_spec. }
    eapply after_accept; eauto; [lra|]. rewrite Hpr. exact Hs''.
  Qed.

  Lemma reach_all N : reach N.
  Proof.
    induction N as [|N IH].
    - intros c p HI Hp Hf Hle. simpl in Hle. rewrite Rmult_0_l in Hle. destruct Hp as [-> | ->].
      + apply ends_time_up. lra.
      + destruct HI as (_ & _ & Id & _). destruct (Id eq_refl) as [H _]. lra.
    - assert (HD : forall c, Inv1 c AtDo -> c_failure c = None ->
        final_time opts - c_time c <= INR (S N) * m -> ends c AtDo).
      { intros c HI Hf Hle.
        assert (Hst : delta <= stable_of c) by (unfold stable_of; rewrite Hf; apply honest).
        destruct (advance_hierarchy sv (dt_of c) (prepared_of c)) as [s3 [e|]] eqn:Ha.
        - destruct honest as [_ Hh].
          destruct (Hh (c_solver c) (dt_of c) (prepared_of c) s3 e) as [He Hre]; auto.
          { unfold prepared_of. rewrite Hf. auto. }
          pose proof (Inv1_step c AtDo HI) as HI'.
          apply ends_step.
          destruct HI as (It & Ib & Id & _). destruct (Id eq_refl) as [Htime Hcyc].
          pose proof (Ib backup_on (or_intror (or_introl eq_refl))) as Hbk.
          destruct (do_body_cases c) as [(Hs & Hb)|(Hs & [(s3' & Ha' & Hb)|(s3' & e' & Ha' & Hb)])];
            [lra|congruence|].
          rewrite Ha in Ha'. inversion Ha'; subst s3' e'. clear Ha'.
          rewrite backup_on, Hbk in Hb.
          erewrite step_do_AtDo in * by exact Hb. unfold finish_do in *.
          match goal with |- context [do_cond _ _ _ ?c0] => set (c1 := c0) in *; destruct (do_cond sv out opts c1) eqn:Ec end;
            cbn [fst snd] in *.
          + apply (retry_accepts N c1 (err_dt e)); auto.
          + match goal with |- ends ?c0 _ => set (c2 := c0) in * end.
            pose proof (Inv1_step c2 AtWhile HI') as HI2.
            apply ends_step.
            assert (Hw : while_cond sv opts c2 = true).
            { unfold while_cond, c2, c1; simpl. destruct (Rlt_dec _ _); [|contradiction]. simpl.
              destruct clock as (_ & Hc & _). rewrite Hc.
              destruct Hcyc as [H|H]; apply Z.ltb_lt in H; rewrite H; auto using Bool.orb_true_r. }
            unfold step in *. rewrite Hw in *. cbn [fst snd] in *.
            apply (retry_accepts N c2 (err_dt e)); auto.
        - eapply after_accept; eauto. }
      intros c p HI [-> | ->] Hf Hle; [|now apply HD].
      apply ends_step. pose proof (Inv1_step c AtWhile HI) as HI'. unfold step in *.
      destruct (while_cond sv opts c); cbn [fst snd] in *.
      + now apply HD.
      + exists 0%nat. reflexivity.
  Qed.

  Lemma C57_lemma : forall s o, exists n, snd (run_simulation sv out opts n s o) = Finished.
  Proof.
    intros s o. unfold run_simulation.
    assert (HN : exists N, final_time opts - c_time (start sv opts s o) <= INR N * m).
    { exists (Z.to_nat (up ((final_time opts - c_time (start sv opts s o)) / m))).
      set (q := (final_time opts - c_time (start sv opts s o)) / m).
      assert (Hq : final_time opts - c_time (start sv opts s o) = q * m).
      { unfold q. field. pose proof m_pos. lra. }
      rewrite Hq. apply Rmult_le_compat_r; [pose proof m_pos; lra|].
      destruct (archimed q) as [A _]. rewrite INR_IZR_INZ.
      destruct (Z_le_gt_dec 0 (up q)) as [Hz|Hz].
      - rewrite Z2Nat.id by exact Hz. lra.
      - assert (IZR (up q) <= 0) by (apply IZR_le; lia).
        assert (0 <= IZR (Z.of_nat (Z.to_nat (up q)))) by (apply IZR_le; lia). lra. }
    destruct HN as [N HN]. apply (reach_all N); auto.
    apply Inv1_start.
  Qed.

End RunProofs.
