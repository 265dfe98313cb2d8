(** Lemmas for C43 and C44. *)
From Coq Require Import List Reals Lra Lia ZArith Bool.
From Verif Require Import ValveModel ValveSpec.
Import ListNotations.
Local Open Scope R_scope.

Definition opened (v : valve) (h : list event) : option R := fold_left (ChangeTOpened v) h None.

Lemma fills_state v h s : fst (fills v s h) = fold_left (ChangeTOpened v) h s.
Proof.
  revert s. induction h as [|e r IH]; intros s; [reflexivity|]. cbn [fills fold_left FillBoundary].
  specialize (IH (ChangeTOpened v s e)). destruct (fills v (ChangeTOpened v s e) r) as [t l]. cbn [fst] in *. auto.
Qed.
Lemma fills_app v h1 h2 s : snd (fills v s (h1 ++ h2)) = snd (fills v s h1) ++ snd (fills v (fst (fills v s h1)) h2).
Proof.
  revert s. induction h1 as [|e r IH]; intros s; [reflexivity|]. cbn [fills app FillBoundary].
  specialize (IH (ChangeTOpened v s e)). destruct (fills v (ChangeTOpened v s e) r) as [t l].
  destruct (fills v (ChangeTOpened v s e) (r ++ h2)) as [t' l']. cbn [fst snd] in *. rewrite IH. reflexivity.
Qed.

(** The hysteresis machine *)
Section Machine.
  Context (f : option R -> event -> option R) (opens closes : event -> Prop).
  Context (opens_dec : forall e, opens e \/ ~ opens e) (closes_dec : forall e, closes e \/ ~ closes e).
  Context (f_open : forall e, opens e -> f None e = Some (time e)) (f_stay : forall e, ~ opens e -> f None e = None)
          (f_close : forall t e, closes e -> f (Some t) e = None) (f_keep : forall t e, ~ closes e -> f (Some t) e = Some t).

  Definition quiet (h : list event) : Prop :=
    exists a b, h = a ++ b /\ Forall (fun e => ~ opens e) b /\ (a = [] \/ exists a' c, a = a' ++ [c] /\ closes c).

  Lemma machine_sound h : match fold_left f h None with Some t => open_since opens closes h t | None => quiet h end.
  Proof.
    induction h as [|e h IH] using rev_ind.
    - exists [], []. split; [reflexivity|]. split; [apply Forall_nil | auto].
    - rewrite fold_left_app. cbn [fold_left]. destruct (fold_left f h None) as [t|].
      + destruct IH as (b & e0 & a & -> & Et & Ho & Ha & Hq). destruct (closes_dec e) as [C | C].
        * rewrite f_close by auto. exists ((b ++ e0 :: a) ++ [e]), []. rewrite app_nil_r. split; auto. split; [apply Forall_nil|].
          right. eexists _, e. split; [reflexivity | auto].
        * rewrite f_keep by auto. exists b, e0, (a ++ [e]). split; [rewrite <- app_assoc; reflexivity|]. split; auto. split; auto.
          split; [apply Forall_app; auto | auto].
      + destruct (opens_dec e) as [O | O].
        * rewrite f_open by auto. exists h, e, []. split; [reflexivity|]. split; [reflexivity|]. split; [exact O|]. split; [apply Forall_nil | exact IH].
        * rewrite f_stay by auto. destruct IH as (a & b & -> & Hb & Ha). exists a, (b ++ [e]). split; [rewrite app_assoc; reflexivity|].
          split; [apply Forall_app; auto | auto].
  Qed.

  Lemma machine_quiet b : Forall (fun e => ~ opens e) b -> fold_left f b None = None.
  Proof. induction 1 as [|e b H _ IH]; cbn [fold_left]; [auto|]. rewrite f_stay by auto. exact IH. Qed.
  Lemma machine_keep t b : Forall (fun e => ~ closes e) b -> fold_left f b (Some t) = Some t.
  Proof. induction 1 as [|e b H _ IH]; cbn [fold_left]; [auto|]. rewrite f_keep by auto. exact IH. Qed.

  Lemma machine_complete h t : (forall e, In e h -> closes e -> ~ opens e) -> open_since opens closes h t -> fold_left f h None = Some t.
  Proof.
    intros X (bf & e0 & af & -> & Et & Ho & Ha & a & b & -> & Hb & Hc).
    rewrite !fold_left_app. cbn [fold_left].
    assert (E : fold_left f a None = None).
    { destruct Hc as [-> | (a' & c & -> & C)]; [reflexivity|]. rewrite fold_left_app. cbn [fold_left].
      destruct (fold_left f a' None) as [u|]; [apply f_close; auto | apply f_stay, X; auto].
      rewrite !in_app_iff. cbn. auto. }
    rewrite E, machine_quiet, f_open, machine_keep by auto. rewrite Et. reflexivity.
  Qed.
End Machine.

Lemma lt_or x y : x < y \/ ~ x < y. Proof. destruct (Rlt_dec x y); auto. Qed.
Lemma le_or x y : x <= y \/ ~ x <= y. Proof. destruct (Rle_dec x y); auto. Qed.

Lemma klein_since h t : opened Klein h = Some t <-> open_since below above h t.
Proof.
  split; intros H.
  - pose proof (machine_sound (ChangeTOpened Klein) below above (fun e => le_or _ _) (fun e => lt_or _ _)) as S.
    unfold opened in H. specialize (S ltac:(intros e O; cbn; destruct (Rle_dec (inner e) (p_comp e)); [auto | contradiction])).
    specialize (S ltac:(intros e O; cbn; destruct (Rle_dec (inner e) (p_comp e)); [contradiction | destruct (Rlt_dec _ _); auto])).
    specialize (S ltac:(intros u e O; cbn; destruct (Rle_dec (inner e) (p_comp e)); destruct (Rlt_dec (p_comp e) (inner e)); auto; contradiction)).
    specialize (S ltac:(intros u e O; cbn; destruct (Rle_dec (inner e) (p_comp e)); destruct (Rlt_dec (p_comp e) (inner e)); auto; contradiction)).
    specialize (S h). rewrite H in S. exact S.
  - apply (machine_complete (ChangeTOpened Klein) below above); auto.
    + intros e O; cbn; destruct (Rle_dec (inner e) (p_comp e)); [auto | contradiction].
    + intros e O; cbn; destruct (Rle_dec (inner e) (p_comp e)); [contradiction | destruct (Rlt_dec _ _); auto].
    + intros u e O; cbn; destruct (Rle_dec (inner e) (p_comp e)); destruct (Rlt_dec (p_comp e) (inner e)); auto; contradiction.
    + intros u e O; cbn; destruct (Rle_dec (inner e) (p_comp e)); destruct (Rlt_dec (p_comp e) (inner e)); auto; contradiction.
    + unfold above, below. intros; lra.
Qed.

Lemma demo_since h t : Forall (fun e => 0 <= p_comp e) h -> opened ReducedModelDemo h = Some t <-> open_since below far_above h t.
Proof.
  intros P. split; intros H.
  - pose proof (machine_sound (ChangeTOpened ReducedModelDemo) below far_above (fun e => le_or _ _) (fun e => lt_or _ _)) as S.
    unfold opened in H. specialize (S ltac:(intros e O; cbn; destruct (Rle_dec (inner e) (p_comp e)); [auto | contradiction])).
    specialize (S ltac:(intros e O; cbn; destruct (Rle_dec (inner e) (p_comp e)); [contradiction | destruct (Rlt_dec _ _); auto])).
    specialize (S ltac:(intros u e O; cbn; destruct (Rle_dec (inner e) (p_comp e)); destruct (Rlt_dec (11 / 10 * p_comp e) (inner e)); auto; contradiction)).
    specialize (S ltac:(intros u e O; cbn; destruct (Rle_dec (inner e) (p_comp e)); destruct (Rlt_dec (11 / 10 * p_comp e) (inner e)); auto; contradiction)).
    specialize (S h). rewrite H in S. exact S.
  - apply (machine_complete (ChangeTOpened ReducedModelDemo) below far_above); auto.
    + intros e O; cbn; destruct (Rle_dec (inner e) (p_comp e)); [auto | contradiction].
    + intros e O; cbn; destruct (Rle_dec (inner e) (p_comp e)); [contradiction | destruct (Rlt_dec _ _); auto].
    + intros u e O; cbn; destruct (Rle_dec (inner e) (p_comp e)); destruct (Rlt_dec (11 / 10 * p_comp e) (inner e)); auto; contradiction.
    + intros u e O; cbn; destruct (Rle_dec (inner e) (p_comp e)); destruct (Rlt_dec (11 / 10 * p_comp e) (inner e)); auto; contradiction.
    + unfold far_above, below. intros e He. rewrite Forall_forall in P. specialize (P e He). lra.
Qed.

(** The opening time is the time of one of the events. *)
Lemma opened_event v h t : opened v h = Some t -> exists e, In e h /\ time e = t.
Proof.
  revert t. induction h as [|e h IH] using rev_ind; intros t; [discriminate|]. unfold opened in *. rewrite fold_left_app. cbn [fold_left].
  intros H. assert (K : ChangeTOpened v (fold_left (ChangeTOpened v) h None) e = Some (time e) \/
                        ChangeTOpened v (fold_left (ChangeTOpened v) h None) e = None \/
                        ChangeTOpened v (fold_left (ChangeTOpened v) h None) e = fold_left (ChangeTOpened v) h None).
  { destruct v; cbn; destruct (fold_left _ h None); auto; try destruct (sec e); cbn; auto;
      destruct (Rle_dec (inner e) (p_comp e)); auto; destruct (Rlt_dec _ _); auto. }
  rewrite H in K. destruct K as [K | [K | K]].
  - exists e. rewrite in_app_iff. cbn. split; [auto | congruence].
  - discriminate.
  - destruct (IH t (eq_sym K)) as (e' & I & E). exists e'. rewrite in_app_iff. auto.
Qed.

Lemma in_order_app h e : in_order (h ++ [e]) -> forall e', In e' h -> time e' <= time e.
Proof.
  induction h as [|x h IH]; cbn; [contradiction|]. intros [A B] e' [-> | I]; [|auto]. apply A. rewrite in_app_iff. cbn. auto.
Qed.

Lemma opened_snoc v h e : opened v (h ++ [e]) = ChangeTOpened v (opened v h) e.
Proof. unfold opened. rewrite fold_left_app. reflexivity. Qed.

(** Whenever gas may flow an opening time exists. *)
Lemma flow_has_time v h e : 0 <= p_comp e -> flows v e -> exists t, opened v (h ++ [e]) = Some t.
Proof.
  intros P F. rewrite opened_snoc. destruct v; cbn in *; unfold below in *.
  - destruct (opened ReducedModelDemo h); destruct (Rle_dec (inner e) (p_comp e)); try contradiction;
      try destruct (Rlt_dec _ _); try lra; eauto.
  - destruct (opened Klein h); destruct (Rle_dec (inner e) (p_comp e)); try contradiction;
      try destruct (Rlt_dec _ _); try lra; eauto.
  - eauto.
  - destruct (sec e); cbn; [|eauto]. destruct F as [F | F]; [discriminate|].
    destruct (opened SwitchToSEC h); destruct (Rle_dec (inner e) (p_comp e)); try contradiction;
      try destruct (Rlt_dec _ _); try lra; eauto.
Qed.
Lemma blocked_iff v e : IsBlocked v e = true <-> ~ flows v e.
Proof.
  destruct v; cbn; unfold below.
  - destruct (Rlt_dec _ _); split; auto; try discriminate; intros; lra.
  - destruct (Rlt_dec _ _); split; auto; try discriminate; intros; lra.
  - split; [discriminate | tauto].
  - destruct (sec e); cbn; [destruct (Rlt_dec _ _)|]; split; try discriminate; auto.
    + intros _ [? | ?]; [discriminate | lra].
    + intros H. exfalso. apply H. right. lra.
Qed.

Lemma fill_action v h e : 0 <= p_comp e -> in_order (h ++ [e]) ->
  exists acts, snd (fills v None (h ++ [e])) = snd (fills v None h) ++ [acts] /\
  (~ flows v e -> acts = Reflect) /\
  (flows v e -> exists t0, fst (fills v None (h ++ [e])) = Some t0 /\ acts = Inflow (time e - t0) /\ t0 <= time e).
Proof.
  intros P O. eexists. split; [|split].
  - rewrite fills_app. cbn [fills FillBoundary snd]. reflexivity.
  - intros F. apply blocked_iff in F. rewrite F. reflexivity.
  - intros F. destruct (flow_has_time v h e P F) as (t & Ht). exists t.
    assert (B : IsBlocked v e = false). { destruct (IsBlocked v e) eqn:B; auto. apply blocked_iff in B. contradiction. }
    rewrite B, !fills_state. fold (opened v (h ++ [e])). fold (opened v h). rewrite <- opened_snoc, Ht. split; [auto|]. split; [auto|].
    destruct (opened_event v _ t Ht) as (e' & I & <-). apply in_app_iff in I. destruct I as [I | [-> | []]]; [|lra].
    eapply in_order_app; eauto.
Qed.

(** The switching valve *)
Lemma switch_since h t : opened SwitchToSEC h = Some t <->
  exists before e0 after, h = before ++ e0 :: after /\ time e0 = t /\ Forall (fun e => sec e = true /\ below e) after /\
    (sec e0 = false \/ sec e0 = true /\ below e0 /\ (before = [] \/ exists b c, before = b ++ [c] /\ sec c = true /\ above c)).
Proof.
  split.
  - revert t. induction h as [|e h IH] using rev_ind; intros t; [discriminate|]. rewrite opened_snoc. cbn [ChangeTOpened].
    destruct (sec e) eqn:Es; cbn [negb].
    + destruct (opened SwitchToSEC h) as [u|] eqn:Eu.
      * intros H. assert (B : below e /\ u = t).
        { unfold below. destruct (Rle_dec (inner e) (p_comp e)); destruct (Rlt_dec (p_comp e) (inner e)); try lra; try discriminate. injection H. auto. }
        destruct B as [B ->]. destruct (IH t eq_refl) as (b & e0 & a & -> & Et & Ha & Hc).
        exists b, e0, (a ++ [e]). split; [rewrite <- app_assoc; reflexivity|]. split; auto. split; auto. apply Forall_app; auto.
      * intros H. assert (B : below e /\ time e = t).
        { unfold below. destruct (Rle_dec (inner e) (p_comp e)); [injection H; auto | destruct (Rlt_dec _ _); discriminate]. }
        destruct B as [B <-]. exists h, e, []. split; [reflexivity|]. split; [reflexivity|]. split; [apply Forall_nil|]. right. split; auto. split; auto.
        destruct h as [|x h0] using rev_ind; [left; reflexivity | right; exists h0, x; split; [reflexivity|]].
        rewrite opened_snoc in Eu; cbn [ChangeTOpened] in Eu; destruct (sec x); cbn [negb] in Eu; [|discriminate]; split; auto.
        unfold above; destruct (opened SwitchToSEC h0); destruct (Rle_dec (inner x) (p_comp x)); try discriminate; try lra;
          destruct (Rlt_dec (p_comp x) (inner x)); try discriminate; auto.
    + intros H. injection H as <-. exists h, e, []. split; [reflexivity|]. split; [reflexivity|]. split; [apply Forall_nil | auto].
  - intros (b & e0 & a & -> & Et & Ha & Hc). unfold opened. rewrite fold_left_app. cbn [fold_left].
    assert (K : forall u, fold_left (ChangeTOpened SwitchToSEC) a (Some u) = Some u).
    { intros u. induction Ha as [|x a [Sx Bx] _ IHa]; [reflexivity|]. cbn [fold_left]. replace (ChangeTOpened SwitchToSEC (Some u) x) with (Some u); auto.
      cbn. rewrite Sx. cbn. unfold below in Bx. destruct (Rlt_dec _ _); [lra | auto]. }
    assert (E : ChangeTOpened SwitchToSEC (fold_left (ChangeTOpened SwitchToSEC) b None) e0 = Some t); [|rewrite E; apply K].
    cbn [ChangeTOpened]. destruct Hc as [-> | (S0 & B0 & Hb)]; cbn [negb]; [congruence|]. rewrite S0. cbn [negb]. unfold below in B0.
    assert (N : fold_left (ChangeTOpened SwitchToSEC) b None = None).
    { destruct Hb as [-> | (b' & c & -> & Sc & Ac)]; [reflexivity|]. rewrite fold_left_app. cbn. rewrite Sc. cbn. unfold above in Ac.
      destruct (fold_left _ b' None); destruct (Rlt_dec (p_comp c) (inner c)); try contradiction; auto.
      destruct (Rle_dec (inner c) (p_comp c)); [lra | auto]. }
    rewrite N. destruct (Rle_dec _ _); [congruence | contradiction].
Qed.

(** ** Fuel *)
Lemma restart_same v : load_valve (save_valve v) = v.
Proof. destruct v as [[] l]; reflexivity. Qed.

Lemma trace_app_inv o : forall h v pre x post, fuel_trace o v h = pre ++ x :: post ->
  exists h1 e h2, h = h1 ++ e :: h2 /\ pre = fuel_trace o v h1 /\
    let w := fold_left (fuel_step o) h1 v in x = (w, e, fuel_step o w e).
Proof.
  induction h as [|e h IH]; intros v pre x post H; [destruct pre; discriminate|]. cbn [fuel_trace] in H. destruct pre as [|y pre].
  - injection H as <- _. exists [], e, h. auto.
  - injection H as <- H. destruct (IH _ _ _ _ H) as (h1 & e' & h2 & -> & -> & E). exists (e :: h1), e', h2. auto.
Qed.

Definition fuel_inv (o : fuel_options) (lowest : R) (n : nat) (v : fuel_valve) : Prop :=
  g_state v <> closed /\ last_fuel v = match n with O => lowest | S k => offset o + INR k * interval o end.

Lemma fuel_next o lowest n v : lowest < 0 -> 0 <= offset o -> 0 <= interval o -> fuel_inv o lowest n v ->
  (if Rlt_dec (last_fuel v) 0 then offset o else last_fuel v + interval o) = offset o + INR n * interval o.
Proof.
  intros Hl Ho Hi [_ E]. rewrite E. destruct n as [|k].
  - destruct (Rlt_dec lowest 0); [cbn; ring | contradiction].
  - assert (0 <= INR k * interval o) by (apply Rmult_le_pos; [apply pos_INR | auto]).
    destruct (Rlt_dec _ _); [lra|]. rewrite S_INR. ring.
Qed.

Lemma fuel_inv_step o lowest n v e : lowest < 0 -> 0 <= offset o -> 0 <= interval o -> fuel_inv o lowest n v ->
  fuel_inv o lowest (match g_state v, g_state (fuel_step o v e) with open_air, open_fuel => S n | _, _ => n end) (fuel_step o v e).
Proof.
  intros Hl Ho Hi I. pose proof (fuel_next o lowest n v Hl Ho Hi I) as N. destruct I as [I E].
  destruct e as [mean t | |]; cbn [fuel_step].
  - unfold ChangeState. rewrite N. clear N. destruct (g_state v) eqn:G; try contradiction.
    + destruct (Rlt_dec _ _); cbn [g_state last_fuel].
      * split; [cbn; congruence | reflexivity].
      * rewrite G. split; [congruence | auto].
    + destruct (Rlt_dec _ _); cbn [g_state last_fuel]; try rewrite G; (split; [cbn; congruence | auto]).
  - destruct (g_state v) eqn:G; (split; [congruence | auto]).
  - rewrite restart_same. destruct (g_state v) eqn:G; (split; [congruence | auto]).
Qed.

Lemma fuel_starts_app a b : fuel_starts (a ++ b) = (fuel_starts a + fuel_starts b)%nat.
Proof.
  induction a as [|[[v e] v'] a IH]; [reflexivity|]. cbn [fuel_starts app]. destruct (g_state v), (g_state v'); rewrite ?IH; reflexivity.
Qed.

Lemma fuel_inv_run o lowest : lowest < 0 -> 0 <= offset o -> 0 <= interval o -> forall h v n, fuel_inv o lowest n v ->
  fuel_inv o lowest (n + fuel_starts (fuel_trace o v h)) (fold_left (fuel_step o) h v).
Proof.
  intros Hl Ho Hi. induction h as [|e h IH]; intros v n I; cbn [fuel_trace fuel_starts fold_left]; [rewrite Nat.add_0_r; auto|].
  pose proof (fuel_inv_step o lowest n v e Hl Ho Hi I) as S.
  destruct (g_state v), (g_state (fuel_step o v e)); try (exact (IH _ _ S)).
  replace (n + Datatypes.S (fuel_starts (fuel_trace o (fuel_step o v e) h)))%nat with (Datatypes.S n + fuel_starts (fuel_trace o (fuel_step o v e) h))%nat by lia.
  exact (IH _ _ S).
Qed.

Theorem fuel_schedule o lowest h pre v e v' post : lowest < 0 -> 0 <= offset o -> 0 <= interval o ->
  fuel_trace o (fresh_valve lowest) h = pre ++ (v, e, v') :: post ->
  let due := offset o + INR (fuel_starts pre) * interval o in
  g_state v' <> closed /\
  (g_state v = open_air -> (g_state v' = open_fuel <-> exists mean t, e = Fill mean t /\ due < t)) /\
  (g_state v = open_air -> g_state v' = open_fuel -> last_fuel v' = due) /\
  (g_state v = open_fuel -> (g_state v' = open_air <-> exists mean t, e = Fill mean t /\ limit o < mean)).
Proof.
  intros Hl Ho Hi H due. destruct (trace_app_inv _ _ _ _ _ _ H) as (h1 & e' & h2 & _ & Epre & E). cbv zeta in E. injection E as -> -> ->.
  set (w := fold_left (fuel_step o) h1 (fresh_valve lowest)).
  assert (I : fuel_inv o lowest (fuel_starts pre) w).
  { rewrite Epre. apply (fuel_inv_run o lowest Hl Ho Hi h1 (fresh_valve lowest) 0%nat). split; [discriminate | reflexivity]. }
  pose proof (fuel_next o lowest _ w Hl Ho Hi I) as N. fold due in N.
  pose proof (fuel_inv_step o lowest _ w e' Hl Ho Hi I) as [S _]. split; [exact S|].
  destruct e' as [mean t | |]; cbn [fuel_step] in *.
  - unfold ChangeState in *. rewrite N in *. clear N. destruct (g_state w) eqn:G.
    + split; [|split]; [| |discriminate].
      * intros _. destruct (Rlt_dec due t); cbn [g_state]; split; try congruence.
        -- intros _. exists mean, t. auto.
        -- intros (m & u & Ee & L). injection Ee as <- <-. contradiction.
      * intros _. destruct (Rlt_dec due t); cbn [g_state last_fuel]; congruence.
    + split; [discriminate|]. split; [discriminate|]. intros _. destruct (Rlt_dec (limit o) mean); cbn [g_state]; split; try congruence.
      * intros _. exists mean, t. auto.
      * intros (m & u & Ee & L). injection Ee as <- <-. contradiction.
    + destruct I as [I _]. contradiction.
  - split; [intros G; rewrite G; split; [discriminate | intros (? & ? & ? & _); discriminate]|]. split; [intros G; rewrite G; discriminate|].
    intros G; rewrite G; split; [discriminate | intros (? & ? & ? & _); discriminate].
  - rewrite restart_same.
    split; [intros G; rewrite G; split; [discriminate | intros (? & ? & ? & _); discriminate]|]. split; [intros G; rewrite G; discriminate|].
    intros G; rewrite G; split; [discriminate | intros (? & ? & ? & _); discriminate].
Qed.
