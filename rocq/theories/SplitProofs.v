From Coq Require Import Reals List Arith Lia Lra Permutation.
From Verif Require Import SplitModel SplitSpec.
Import ListNotations.
Local Open Scope R_scope.

(** * A plan language for split steps *)

Fixpoint sched2 (m : method) (dt : R) (p1 p2 : R -> list (nat * R)) : list (nat * R) :=
  match m with
  | Godunov => p1 dt ++ p2 dt
  | Strang => p1 (/2*dt) ++ p2 (/2*dt) ++ p2 (/2*dt) ++ p1 (/2*dt)
  | StrangLumped => p1 (/2*dt) ++ p2 dt ++ p1 (/2*dt)
  | AnySplit m' => sched2 m' dt p1 p2
  end.

Fixpoint sched_rec (m : method) (i n : nat) (dt : R) : list (nat * R) :=
  match n with
  | O => []
  | S O => [(i, dt)]
  | S n' => sched2 m dt (fun t => [(i, t)]) (fun t => sched_rec m (S i) n' t)
  end.

Definition sched3 (m : method) (dt : R) : list (nat * R) :=
  match m with
  | Strang => [(0%nat, /2*dt); (1%nat, /2*dt); (2%nat, /2*dt); (2%nat, /2*dt); (1%nat, /2*dt); (0%nat, /2*dt)]
  | _ => sched_rec m 0 3 dt
  end.

Definition sched (m : method) (n : nat) (dt : R) : list (nat * R) :=
  match n with
  | 3%nat => sched3 m dt
  | _ => sched_rec m 0 n dt
  end.

Fixpoint run_plan {W} (fs : list (op W)) (p : list (nat * R)) (w : W) : W * Result :=
  match p with
  | [] => (w, None)
  | (i, d) :: r =>
      match nth_error fs i with
      | Some f => bind (f d) (run_plan fs r) w
      | None => (w, None)
      end
  end.

Lemma run_plan_app {W} (fs : list (op W)) p q w :
  Forall (fun c => (fst c < length fs)%nat) p ->
  run_plan fs (p ++ q) w = bind (run_plan fs p) (run_plan fs q) w.
Proof.
  intros H. revert w. induction H as [|[i d] p Hi Hp IH]; intros w; simpl.
  - reflexivity.
  - simpl in Hi. destruct (nth_error fs i) as [f|] eqn:E.
    + unfold bind at 1. destruct (f d w) as [w' [e|]] eqn:F.
      * unfold bind. simpl. rewrite ?E, ?F. reflexivity.
      * unfold bind at 1. rewrite IH. unfold bind. simpl. rewrite ?E, ?F. reflexivity.
    + apply nth_error_None in E. lia.
Qed.

Lemma bind_ext {W} (a a' b b' : W -> W * Result) w :
  (forall x, a x = a' x) -> (forall x, b x = b' x) -> bind a b w = bind a' b' w.
Proof.
  intros Ha Hb. unfold bind. rewrite Ha. destruct (a' w) as [w' [e|]]; auto.
Qed.

Definition bounded (n : nat) (p : list (nat * R)) := Forall (fun c => (fst c < n)%nat) p.

Lemma sched2_bounded m n dt p1 p2 :
  (forall t, bounded n (p1 t)) -> (forall t, bounded n (p2 t)) -> bounded n (sched2 m dt p1 p2).
Proof.
  intros H1 H2. induction m; simpl; unfold bounded in *; repeat (apply Forall_app; split); auto.
Qed.

Lemma sched_rec_bounded m n : forall i dt, bounded (i + n) (sched_rec m i n dt).
Proof.
  induction n as [|n IH]; intros i dt.
  - constructor.
  - destruct n as [|n].
    + constructor; [simpl; lia|constructor].
    + change (sched_rec m i (S (S n)) dt) with
        (sched2 m dt (fun t => [(i, t)]) (fun t => sched_rec m (S i) (S n) t)).
      apply sched2_bounded; intros t.
      * constructor; [simpl; lia|constructor].
      * replace (i + S (S n))%nat with (S i + S n)%nat by lia. apply IH.
Qed.

Lemma sched_bounded m n dt : bounded n (sched m n dt).
Proof.
  assert (G : bounded n (sched_rec m 0 n dt)) by apply (sched_rec_bounded m n 0 dt).
  destruct n as [|[|[|[|n]]]]; try exact G.
  unfold sched, sched3. destruct m; try exact G.
  repeat constructor.
Qed.

Lemma advance2_run {W} (m : method) (fs : list (op W)) (a1 a2 : op W) p1 p2 :
  (forall t, bounded (length fs) (p1 t)) -> (forall t, bounded (length fs) (p2 t)) ->
  (forall t w, a1 t w = run_plan fs (p1 t) w) ->
  (forall t w, a2 t w = run_plan fs (p2 t) w) ->
  forall dt w, advance2 m dt a1 a2 w = run_plan fs (sched2 m dt p1 p2) w.
Proof.
  intros B1 B2 H1 H2. induction m; intros dt w; simpl.
  - unfold godunov2. rewrite run_plan_app by apply B1. apply bind_ext; intros; auto.
  - unfold strang2. rewrite run_plan_app by apply B1. apply bind_ext; intros x; auto.
    rewrite run_plan_app by apply B2. apply bind_ext; intros y; auto.
    rewrite run_plan_app by apply B2. apply bind_ext; intros z; auto.
  - unfold lumped2. rewrite run_plan_app by apply B1. apply bind_ext; intros x; auto.
    rewrite run_plan_app by apply B2. apply bind_ext; intros y; auto.
  - apply IHm.
Qed.

Lemma run_single {W} (fs : list (op W)) i a t w :
  nth_error fs i = Some a -> run_plan fs [(i, t)] w = a t w.
Proof.
  intros E. simpl. rewrite E. unfold bind. destruct (a t w) as [w' [e|]]; reflexivity.
Qed.

Lemma nth_error_mid {A} (pre : list A) a r : nth_error (pre ++ a :: r) (length pre) = Some a.
Proof. rewrite nth_error_app2 by lia. now rewrite Nat.sub_diag. Qed.

Lemma advance_rec_run {W} m (ops : list (op W)) : forall pre dt w,
  advance_rec m ops dt w = run_plan (pre ++ ops) (sched_rec m (length pre) (length ops) dt) w.
Proof.
  induction ops as [|a r IH]; intros pre dt w.
  - reflexivity.
  - destruct r as [|b r].
    + change (sched_rec m (length pre) (length [a]) dt) with [(length pre, dt)].
      rewrite (run_single _ _ a); [reflexivity|]. apply nth_error_mid.
    + change (advance_rec m (a :: b :: r) dt w) with
        (advance2 m dt a (fun ts => advance_rec m (b :: r) ts) w).
      change (sched_rec m (length pre) (length (a :: b :: r)) dt) with
        (sched2 m dt (fun t => [(length pre, t)])
           (fun t => sched_rec m (S (length pre)) (length (b :: r)) t)).
      apply advance2_run.
      * intros t. constructor; [simpl; rewrite app_length; simpl; lia | constructor].
      * intros t. rewrite app_length.
        replace (length pre + length (a :: b :: r))%nat with (S (length pre) + length (b :: r))%nat
          by (simpl; lia).
        apply sched_rec_bounded.
      * intros t w'. rewrite (run_single _ _ a); [reflexivity|]. apply nth_error_mid.
      * intros t w'. specialize (IH (pre ++ [a]) t w').
        rewrite <- app_assoc in IH. rewrite app_length in IH. simpl in IH.
        replace (length pre + 1)%nat with (S (length pre)) in IH by lia. exact IH.
Qed.

Lemma advance_run {W} m (fs : list (op W)) dt w :
  advance m fs dt w = run_plan fs (sched m (length fs) dt) w.
Proof.
  assert (G : advance_rec m fs dt w = run_plan fs (sched_rec m 0 (length fs) dt) w)
    by apply (advance_rec_run m fs [] dt w).
  destruct fs as [|a [|b [|c [|d r]]]]; try exact G.
  unfold advance. simpl length. unfold sched, sched3, advance3.
  destruct m; try exact G.
  unfold strang3. cbn. apply bind_ext; intros x; auto. apply bind_ext; intros y; auto.
  apply bind_ext; intros z; auto. apply bind_ext; intros u; auto. apply bind_ext; intros v; auto.
  unfold bind. destruct (a (/2*dt) v) as [w' [e|]]; reflexivity.
Qed.

(** * Time spent in the operators *)

Fixpoint ptime (i : nat) (p : list (nat * R)) : R :=
  match p with
  | [] => 0
  | (j, d) :: r => (if Nat.eqb j i then d else 0) + ptime i r
  end.

Lemma ptime_app i p q : ptime i (p ++ q) = ptime i p + ptime i q.
Proof. induction p as [|[j d] p IH]; simpl; [lra|]. rewrite IH. lra. Qed.

Lemma ptime_plan i l : time_in i l = ptime i (plan l).
Proof. induction l as [|c l IH]; simpl; [reflexivity|]. now rewrite IH. Qed.

Lemma ptime_sched2 m j dt p1 p2 c1 c2 :
  (forall t, ptime j (p1 t) = c1 * t) -> (forall t, ptime j (p2 t) = c2 * t) ->
  ptime j (sched2 m dt p1 p2) = (c1 + c2) * dt.
Proof.
  intros H1 H2. induction m; simpl; rewrite ?ptime_app, ?H1, ?H2; try lra.
Qed.

Lemma ptime_rec_low m n : forall i j dt, (j < i)%nat -> ptime j (sched_rec m i n dt) = 0.
Proof.
  induction n as [|n IH]; intros i j dt Hj; [reflexivity|].
  destruct n as [|n].
  - simpl. destruct (Nat.eqb_spec i j); [lia|lra].
  - change (sched_rec m i (S (S n)) dt) with
      (sched2 m dt (fun t => [(i, t)]) (fun t => sched_rec m (S i) (S n) t)).
    rewrite (ptime_sched2 m j dt _ _ 0 0); [lra| |].
    + intros t. simpl. destruct (Nat.eqb_spec i j); [lia|lra].
    + intros t. rewrite IH by lia. lra.
Qed.

Lemma ptime_rec m n : forall i j dt, (i <= j < i + n)%nat -> ptime j (sched_rec m i n dt) = dt.
Proof.
  induction n as [|n IH]; intros i j dt Hj; [lia|].
  destruct n as [|n].
  - simpl. destruct (Nat.eqb_spec i j); [lra|lia].
  - change (sched_rec m i (S (S n)) dt) with
      (sched2 m dt (fun t => [(i, t)]) (fun t => sched_rec m (S i) (S n) t)).
    destruct (Nat.eq_dec i j) as [->|Hne].
    + rewrite (ptime_sched2 m j dt _ _ 1 0).
      * lra.
      * intros t. simpl. rewrite Nat.eqb_refl. lra.
      * intros t. rewrite ptime_rec_low by lia. lra.
    + rewrite (ptime_sched2 m j dt _ _ 0 1).
      * lra.
      * intros t. simpl. destruct (Nat.eqb_spec i j); [lia|lra].
      * intros t. rewrite IH by lia. lra.
Qed.

Lemma ptime_sched m n j dt : (j < n)%nat -> ptime j (sched m n dt) = dt.
Proof.
  intros Hj. assert (G : ptime j (sched_rec m 0 n dt) = dt) by (apply ptime_rec; lia).
  destruct n as [|[|[|[|n]]]]; try exact G.
  unfold sched, sched3. destruct m; try exact G.
  destruct j as [|[|[|j]]]; simpl; lra || lia.
Qed.

(** * Positive pieces *)

Lemma sched2_pieces m dt p1 p2 (P : nat * R -> Prop) :
  0 <= dt ->
  (forall t, 0 <= t <= dt -> Forall P (p1 t)) -> (forall t, 0 <= t <= dt -> Forall P (p2 t)) ->
  Forall P (sched2 m dt p1 p2).
Proof.
  intros Hd H1 H2. induction m; simpl; rewrite ?Forall_app; repeat split; auto;
    try apply H1; try apply H2; lra.
Qed.

Lemma sched_rec_pieces m n : forall i dt b, 0 <= dt <= b ->
  Forall (fun c => 0 <= snd c <= b) (sched_rec m i n dt).
Proof.
  induction n as [|n IH]; intros i dt b Hd; [constructor|].
  destruct n as [|n].
  - constructor; [simpl; lra|constructor].
  - change (sched_rec m i (S (S n)) dt) with
      (sched2 m dt (fun t => [(i, t)]) (fun t => sched_rec m (S i) (S n) t)).
    apply sched2_pieces; [lra| |].
    + intros t Ht. constructor; [simpl; lra|constructor].
    + intros t Ht. apply IH. lra.
Qed.

Lemma sched_pieces m n dt : 0 <= dt -> Forall (fun c => 0 <= snd c <= dt) (sched m n dt).
Proof.
  intros Hd. assert (G : Forall (fun c => 0 <= snd c <= dt) (sched_rec m 0 n dt))
    by (apply sched_rec_pieces; lra).
  destruct n as [|[|[|[|n]]]]; try exact G.
  unfold sched, sched3. destruct m; try exact G.
  repeat (apply Forall_cons; [simpl; lra|]). apply Forall_nil.
Qed.

(** * Palindromes *)

Lemma sched2_rev m dt p1 p2 : is_symmetric m = true ->
  (forall t, rev (p1 t) = p1 t) -> (forall t, rev (p2 t) = p2 t) ->
  rev (sched2 m dt p1 p2) = sched2 m dt p1 p2.
Proof.
  intros Hs H1 H2. induction m; simpl in *; try discriminate;
    rewrite ?rev_app_distr, ?H1, ?H2, <- ?app_assoc; auto.
Qed.

Lemma sched_rec_rev m n : is_symmetric m = true ->
  forall i dt, rev (sched_rec m i n dt) = sched_rec m i n dt.
Proof.
  intros Hs. induction n as [|n IH]; intros i dt; [reflexivity|].
  destruct n as [|n]; [reflexivity|].
  apply (sched2_rev m dt (fun t => [(i, t)]) (fun t => sched_rec m (S i) (S n) t)); auto.
Qed.

Lemma sched_rev m n dt : is_symmetric m = true -> rev (sched m n dt) = sched m n dt.
Proof.
  intros Hs. assert (G := sched_rec_rev m n Hs 0 dt).
  destruct n as [|[|[|[|n]]]]; try exact G.
  unfold sched, sched3. destruct m; try exact G. reflexivity.
Qed.

(** * Order of first calls *)

Lemma sched2_order m dt p1 p2 n i :
  (forall t, map fst (p1 t) = [i]) ->
  (forall t, firstn n (map fst (p2 t)) = seq (S i) n) ->
  firstn (S n) (map fst (sched2 m dt p1 p2)) = seq i (S n).
Proof.
  intros H1 H2.
  assert (L : forall t, (n <= length (map fst (p2 t)))%nat).
  { intros t. pose proof (f_equal (@length nat) (H2 t)) as E.
    rewrite firstn_length, seq_length in E. lia. }
  assert (L' : forall t, (n - length (map fst (p2 t)) = 0)%nat) by (intros t; specialize (L t); lia).
  induction m; simpl; rewrite ?map_app, ?H1; simpl; auto; f_equal;
    rewrite ?firstn_app, ?L'; simpl; rewrite ?app_nil_r; auto.
Qed.

Lemma sched_rec_order m n : forall i dt, firstn n (map fst (sched_rec m i n dt)) = seq i n.
Proof.
  induction n as [|n IH]; intros i dt; [reflexivity|].
  destruct n as [|n]; [reflexivity|].
  apply (sched2_order m dt (fun t => [(i, t)]) (fun t => sched_rec m (S i) (S n) t) (S n) i); auto.
Qed.

Lemma sched_order m n dt : firstn n (map fst (sched m n dt)) = seq 0 n.
Proof.
  assert (G := sched_rec_order m n 0 dt).
  destruct n as [|[|[|[|n]]]]; try exact G.
  unfold sched, sched3. destruct m; try exact G.
Qed.

(** * Logged runs *)

Lemma logged_from_nth {W} (fs : list (op W)) : forall k i,
  nth_error (logged_from k fs) i = option_map (logged (k + i)) (nth_error fs i).
Proof.
  induction fs as [|f r IH]; intros k i.
  - now destruct i.
  - destruct i as [|i]; simpl.
    + now rewrite Nat.add_0_r.
    + rewrite IH. now replace (S k + i)%nat with (k + S i)%nat by lia.
Qed.

Lemma logged_from_length {W} (fs : list (op W)) : forall k, length (logged_from k fs) = length fs.
Proof. induction fs as [|f r IH]; intros k; simpl; auto. Qed.

Lemma run_logged {W} (fs : list (op W)) (p : list (nat * R)) : bounded (length fs) p ->
  forall l w l' w' r,
  run_plan (logged_from 0 fs) p (l, w) = ((l', w'), r) ->
  exists log, l' = l ++ log /\ replay fs (plan log) w = w' /\
    ((r = None /\ plan log = p /\ Forall (fun c => outcome c = None) log) \/
     (exists e log0 i d rest, r = Some e /\ log = log0 ++ [mkCall i d (Some e)] /\
        Forall (fun c => outcome c = None) log0 /\ p = plan log ++ rest)).
Proof.
  intros B. induction B as [|[i d] p Hi Hp IH]; intros l w l' w' r Hrun.
  - simpl in Hrun. inversion Hrun; subst. exists []. rewrite app_nil_r. simpl.
    repeat split; auto.
  - simpl in Hrun. rewrite (logged_from_nth fs 0 i) in Hrun. simpl in Hi.
    destruct (nth_error fs i) as [f|] eqn:E; [|apply nth_error_None in E; lia].
    simpl in Hrun. unfold bind, logged in Hrun.
    destruct (f d w) as [w1 [e|]] eqn:F.
    + inversion Hrun; subst. exists [mkCall i d (Some e)]. split; [reflexivity|]. split.
      * simpl. rewrite E, F. reflexivity.
      * right. exists e, [], i, d, p. repeat split; auto.
    + apply IH in Hrun. destruct Hrun as (log & -> & Hw & Hcase).
      exists (mkCall i d None :: log). split; [now rewrite <- app_assoc|]. split.
      * simpl. rewrite E, F. exact Hw.
      * destruct Hcase as [(-> & <- & Hok)|(e & log0 & i' & d' & rest & -> & -> & Hok & ->)].
        -- left. repeat split; auto.
        -- right. exists e, (mkCall i d None :: log0), i', d', rest. repeat split; auto.
Qed.

(** * Main lemmas *)

Lemma C01_lemma : forall (m : method) (W : Type) (fs : list (op W)) dt w log w',
  advance m (logged_from 0 fs) dt ([], w) = ((log, w'), None) ->
  (forall i, (i < length fs)%nat -> time_in i log = dt) /\
  (forall c, In c log -> (who c < length fs)%nat) /\
  (0 <= dt -> forall c, In c log -> 0 <= how_long c <= dt) /\
  (is_symmetric m = true -> rev (plan log) = plan log) /\
  firstn (length fs) (map who log) = seq 0 (length fs).
Proof.
  intros m W fs dt w log w' H. rewrite advance_run in H. rewrite logged_from_length in H.
  apply run_logged in H; [|apply sched_bounded].
  destruct H as (log' & Hl & _ & [(_ & Hp & Hok)|(e & log0 & i' & d' & rest & Hr & _)]);
    [|discriminate].
  simpl in Hl. subst log'. split; [|split; [|split; [|split]]].
  - intros i Hi. rewrite ptime_plan, Hp. now apply ptime_sched.
  - intros c Hc. assert (Hin : In (who c, how_long c) (plan log)).
    { unfold plan. apply in_map_iff. exists c; auto. }
    rewrite Hp in Hin. pose proof (sched_bounded m (length fs) dt) as B.
    unfold bounded in B. rewrite Forall_forall in B. apply (B _ Hin).
  - intros Hd c Hc. assert (Hin : In (who c, how_long c) (plan log)).
    { unfold plan. apply in_map_iff. exists c; auto. }
    rewrite Hp in Hin. pose proof (sched_pieces m (length fs) dt Hd) as B.
    rewrite Forall_forall in B. apply (B _ Hin).
  - intros Hs. rewrite Hp. now apply sched_rev.
  - rewrite <- (sched_order m (length fs) dt), <- Hp. unfold plan. rewrite map_map. reflexivity.
Qed.

Lemma C02_lemma : forall (m : method) (n : nat) (dt : R), exists full : list (nat * R),
  forall (W : Type) (fs : list (op W)) (w : W), length fs = n ->
  forall log w' r,
  advance m (logged_from 0 fs) dt ([], w) = ((log, w'), r) ->
  w' = replay fs (plan log) w /\
  match r with
  | None => plan log = full /\ (forall c, In c log -> outcome c = None)
  | Some e => exists before last rest,
      log = before ++ [last] /\ outcome last = Some e /\
      (forall c, In c before -> outcome c = None) /\
      full = plan log ++ rest
  end.
Proof.
  intros m n dt. exists (sched m n dt). intros W fs w Hn log w' r H.
  rewrite advance_run in H. rewrite logged_from_length, Hn in H.
  apply run_logged in H; [|rewrite Hn; apply sched_bounded].
  destruct H as (log' & Hl & Hw & Hcase). simpl in Hl. subst log'. split; [congruence|].
  destruct Hcase as [(-> & Hp & Hok)|(e & log0 & i' & d' & rest & -> & -> & Hok & Hp)].
  - split; auto. rewrite Forall_forall in Hok. exact Hok.
  - exists log0, (mkCall i' d' (Some e)), rest. rewrite Forall_forall in Hok. repeat split; auto.
Qed.

(** The wrapped run is the same run: observing does not change the effect. *)
Lemma run_logged_same {W} (fs : list (op W)) p : bounded (length fs) p -> forall l w,
  let '((_, w1), r1) := run_plan (logged_from 0 fs) p (l, w) in
  run_plan fs p w = (w1, r1).
Proof.
  intros B. induction B as [|[i d] p Hi Hp IH]; intros l w; simpl; [reflexivity|].
  rewrite (logged_from_nth fs 0 i). simpl in Hi.
  destruct (nth_error fs i) as [f|] eqn:E; [|apply nth_error_None in E; lia].
  simpl. unfold bind, logged. destruct (f d w) as [w1 [e|]]; [reflexivity|]. apply IH.
Qed.

Lemma C02_transparent_lemma : forall (m : method) (W : Type) (fs : list (op W)) dt w log w' r,
  advance m (logged_from 0 fs) dt ([], w) = ((log, w'), r) ->
  advance m fs dt w = (w', r).
Proof.
  intros m W fs dt w log w' r H. rewrite advance_run in H. rewrite advance_run. rewrite logged_from_length in H.
  pose proof (run_logged_same fs (sched m (length fs) dt) (sched_bounded _ _ _) [] w) as G.
  rewrite H in G. exact G.
Qed.

(** * Flows *)

Fixpoint run_flow {W} (phis : list (R -> W -> W)) (p : list (nat * R)) (w : W) : W :=
  match p with
  | [] => w
  | (i, d) :: r =>
      match nth_error phis i with
      | Some phi => run_flow phis r (phi d w)
      | None => w
      end
  end.

Lemma run_plan_flow {W} (phis : list (R -> W -> W)) p : bounded (length phis) p -> forall w,
  run_plan (map flow_op phis) p w = (run_flow phis p w, None).
Proof.
  intros B. induction B as [|[i d] p Hi Hp IH]; intros w; simpl; [reflexivity|].
  rewrite nth_error_map. simpl in Hi.
  destruct (nth_error phis i) as [f|] eqn:E; [|apply nth_error_None in E; lia].
  simpl. unfold bind, flow_op. apply IH.
Qed.

Lemma run_flow_app {W} (phis : list (R -> W -> W)) p q : bounded (length phis) p -> forall w,
  run_flow phis (p ++ q) w = run_flow phis q (run_flow phis p w).
Proof.
  intros B. induction B as [|[i d] p Hi Hp IH]; intros w; simpl; [reflexivity|].
  simpl in Hi. destruct (nth_error phis i) as [f|] eqn:E; [|apply nth_error_None in E; lia].
  apply IH.
Qed.

Definition neg (p : list (nat * R)) := map (fun c => (fst c, - snd c)) p.

Lemma run_flow_undo {W} (phis : list (R -> W -> W)) p : bounded (length phis) p ->
  (forall phi, In phi phis -> is_flow phi) -> forall w,
  run_flow phis (neg (rev p)) (run_flow phis p w) = w.
Proof.
  intros B HF. induction B as [|[i d] p Hi Hp IH]; intros w; simpl; [reflexivity|].
  simpl in Hi. destruct (nth_error phis i) as [f|] eqn:E; [|apply nth_error_None in E; lia].
  unfold neg. rewrite map_app. rewrite run_flow_app.
  - fold (neg (rev p)). rewrite IH. simpl. rewrite E.
    apply nth_error_In in E. destruct (HF _ E) as [H0 Hadd].
    rewrite <- Hadd. replace (- d + d) with 0 by lra. apply H0.
  - unfold bounded. apply Forall_map. simpl. apply Forall_rev. exact Hp.
Qed.

Lemma neg_app p q : neg (p ++ q) = neg p ++ neg q.
Proof. apply map_app. Qed.

Lemma sched2_neg m dt p1 p2 :
  (forall t, neg (p1 t) = p1 (- t)) -> (forall t, neg (p2 t) = p2 (- t)) ->
  neg (sched2 m dt p1 p2) = sched2 m (- dt) p1 p2.
Proof.
  intros H1 H2. assert (Hh : / 2 * - dt = - (/ 2 * dt)) by lra.
  induction m; simpl; rewrite ?neg_app, ?H1, ?H2, ?Hh; auto.
Qed.

Lemma sched_rec_neg m n : forall i dt, neg (sched_rec m i n dt) = sched_rec m i n (- dt).
Proof.
  induction n as [|n IH]; intros i dt; [reflexivity|].
  destruct n as [|n]; [reflexivity|].
  apply (sched2_neg m dt (fun t => [(i, t)]) (fun t => sched_rec m (S i) (S n) t)); auto.
Qed.

Lemma sched_neg m n dt : neg (sched m n dt) = sched m n (- dt).
Proof.
  assert (G := sched_rec_neg m n 0 dt).
  destruct n as [|[|[|[|n]]]]; try exact G.
  unfold sched, sched3. destruct m; try exact G.
  unfold neg; simpl. replace (/ 2 * - dt) with (- (/ 2 * dt)) by lra. reflexivity.
Qed.

Lemma advance_flow {W} m (phis : list (R -> W -> W)) dt w :
  advance m (map flow_op phis) dt w = (run_flow phis (sched m (length phis) dt) w, None).
Proof.
  rewrite advance_run, map_length. apply run_plan_flow, sched_bounded.
Qed.

Lemma C03_lemma : forall (m : method) (W : Type) (phis : list (R -> W -> W)) dt w,
  is_symmetric m = true ->
  (forall phi, In phi phis -> is_flow phi) ->
  advance m (map flow_op phis) (- dt) (fst (advance m (map flow_op phis) dt w)) = (w, None).
Proof.
  intros m W phis dt w Hs HF. rewrite !advance_flow. simpl. f_equal.
  rewrite <- sched_neg. rewrite <- (sched_rev m (length phis) dt Hs) at 1.
  apply run_flow_undo; [apply sched_bounded|exact HF].
Qed.

(** Commuting flows: only the accumulated times matter. *)
Fixpoint total_flow {W} (phis : list (R -> W -> W)) (k : nat) (p : list (nat * R)) (w : W) : W :=
  match phis with
  | [] => w
  | phi :: r => total_flow r (S k) p (phi (ptime k p) w)
  end.

Lemma commute_through {W} (phis : list (R -> W -> W)) (k : nat) p (psi : R -> W -> W) s :
  (forall phi, In phi phis -> forall a b w, phi a (psi b w) = psi b (phi a w)) ->
  forall w, total_flow phis k p (psi s w) = psi s (total_flow phis k p w).
Proof.
  revert k. induction phis as [|phi r IH]; intros k H w; simpl; [reflexivity|].
  rewrite H by (left; reflexivity). apply IH. intros phi' Hin. apply H. now right.
Qed.

Lemma total_flow_cons_other {W} (phis : list (R -> W -> W)) k i d p w :
  (i < k)%nat -> total_flow phis k ((i, d) :: p) w = total_flow phis k p w.
Proof.
  revert k w. induction phis as [|phi r IH]; intros k w H; simpl; [reflexivity|].
  destruct (Nat.eqb_spec i k); [lia|]. rewrite Rplus_0_l. apply IH. lia.
Qed.

Lemma total_flow_cons {W} (phis : list (R -> W -> W)) : forall k i d p w phi,
  (forall phi, In phi phis -> is_flow phi) ->
  (forall phi psi, In phi phis -> In psi phis -> forall a b w, phi a (psi b w) = psi b (phi a w)) ->
  nth_error phis i = Some phi ->
  total_flow phis k ((k + i, d) :: p)%nat w = total_flow phis k p (phi d w).
Proof.
  induction phis as [|phi0 r IH]; intros k i d p w phi HF HC E; [destruct i; discriminate|].
  destruct i as [|i]; simpl in E.
  - inversion E; subst phi0. simpl. rewrite Nat.add_0_r, Nat.eqb_refl.
    rewrite total_flow_cons_other by lia.
    destruct (HF phi (or_introl eq_refl)) as [_ Hadd].
    rewrite (Rplus_comm d). rewrite Hadd. reflexivity.
  - simpl. destruct (Nat.eqb_spec (k + S i) k); [lia|]. rewrite Rplus_0_l.
    replace (k + S i)%nat with (S k + i)%nat by lia.
    rewrite (IH (S k) i d p _ phi).
    + rewrite HC; [reflexivity| |now left]. right. now apply nth_error_In in E.
    + intros phi' H'. apply HF. now right.
    + intros a b Ha Hb. apply HC; now right.
    + exact E.
Qed.

Lemma total_flow_nil {W} (phis : list (R -> W -> W)) : forall k w,
  (forall phi, In phi phis -> is_flow phi) -> total_flow phis k [] w = w.
Proof.
  induction phis as [|phi r IH]; intros k w HF; simpl; [reflexivity|].
  destruct (HF phi (or_introl eq_refl)) as [H0 _]. rewrite H0. apply IH.
  intros phi' H'. apply HF. now right.
Qed.

Lemma run_flow_total {W} (phis : list (R -> W -> W)) p : bounded (length phis) p ->
  (forall phi, In phi phis -> is_flow phi) ->
  (forall phi psi, In phi phis -> In psi phis -> forall a b w, phi a (psi b w) = psi b (phi a w)) ->
  forall w, run_flow phis p w = total_flow phis 0 p w.
Proof.
  intros B HF HC. induction B as [|[i d] p Hi Hp IH]; intros w.
  - simpl. now rewrite total_flow_nil.
  - simpl. simpl in Hi. destruct (nth_error phis i) as [phi|] eqn:E; [|apply nth_error_None in E; lia].
    rewrite IH. symmetry. apply (total_flow_cons phis 0 i d p w phi); auto.
Qed.

Lemma total_flow_compose {W} (phis : list (R -> W -> W)) : forall k p dt w,
  (forall j, (k <= j < k + length phis)%nat -> ptime j p = dt) ->
  total_flow phis k p w = compose_all phis dt w.
Proof.
  induction phis as [|phi r IH]; intros k p dt w H; simpl; [reflexivity|].
  rewrite H by (simpl; lia). apply IH. intros j Hj. apply H. simpl. lia.
Qed.

Lemma C03_commuting_lemma : forall (m : method) (W : Type) (phis : list (R -> W -> W)) dt w,
  (forall phi, In phi phis -> is_flow phi) ->
  (forall phi psi, In phi phis -> In psi phis -> forall a b w, phi a (psi b w) = psi b (phi a w)) ->
  advance m (map flow_op phis) dt w = (compose_all phis dt w, None).
Proof.
  intros m W phis dt w HF HC. rewrite advance_flow. f_equal.
  rewrite run_flow_total; auto using sched_bounded.
  apply total_flow_compose. intros j Hj. apply ptime_sched. lia.
Qed.

(** Godunov splitting composes the full flows in order, for any flows. *)
Lemma sched_rec_godunov_flow {W} (phis : list (R -> W -> W)) : forall pre dt w,
  run_flow (pre ++ phis) (sched_rec Godunov (length pre) (length phis) dt) w
  = compose_all phis dt w.
Proof.
  induction phis as [|phi r IH]; intros pre dt w; [reflexivity|].
  destruct r as [|psi r].
  - simpl. rewrite nth_error_mid. reflexivity.
  - change (sched_rec Godunov (length pre) (length (phi :: psi :: r)) dt) with
      ([(length pre, dt)] ++ sched_rec Godunov (S (length pre)) (length (psi :: r)) dt).
    rewrite run_flow_app by (constructor; [simpl; rewrite app_length; simpl; lia|constructor]).
    simpl run_flow at 2. rewrite nth_error_mid.
    specialize (IH (pre ++ [phi]) dt (phi dt w)). rewrite <- app_assoc in IH.
    rewrite app_length in IH. simpl in IH. rewrite Nat.add_1_r in IH. exact IH.
Qed.

Lemma C03_godunov_lemma : forall (W : Type) (phis : list (R -> W -> W)) dt w,
  advance Godunov (map flow_op phis) dt w = (compose_all phis dt w, None).
Proof.
  intros W phis dt w. rewrite advance_flow. f_equal.
  assert (E : sched Godunov (length phis) dt = sched_rec Godunov 0 (length phis) dt).
  { destruct phis as [|a [|b [|c [|d r]]]]; reflexivity. }
  rewrite E. apply (sched_rec_godunov_flow phis [] dt w).
Qed.

(** * Directions *)

Lemma dirs_cases rank cycle sub :
  make_split_directions rank cycle sub = seq 0 rank /\ Nat.even (cycle + sub) = true \/
  make_split_directions rank cycle sub = rev (seq 0 rank) /\ Nat.even (cycle + sub) = false.
Proof.
  unfold make_split_directions.
  assert (E : ((cycle mod 2 + sub) mod 2)%nat = ((cycle + sub) mod 2)%nat).
  { rewrite Nat.add_mod_idemp_l; lia. }
  rewrite E. pose proof (Nat.mod_upper_bound (cycle + sub) 2 ltac:(lia)) as Hb.
  destruct ((cycle + sub) mod 2)%nat as [|[|k]] eqn:Em; [left|right|lia].
  - split.
    + simpl. transitivity (map (fun i => i) (seq 0 rank)); [|apply map_id].
      apply map_ext. intros; lia.
    + apply Nat.even_spec. exists ((cycle + sub) / 2)%nat.
      pose proof (Nat.div_mod (cycle + sub) 2). lia.
  - split.
    + simpl. transitivity (map (fun i => rank - 1 - i)%nat (seq 0 rank)); [apply map_ext; intros; lia|].
      clear. induction rank as [|r IH]; [reflexivity|].
      rewrite seq_S at 2. rewrite rev_app_distr. simpl rev. rewrite <- IH.
      simpl. f_equal; [lia|]. rewrite <- seq_shift, map_map. apply map_ext. intros; lia.
    + destruct (Nat.even (cycle + sub)) eqn:Ev; [|reflexivity].
      apply Nat.even_spec in Ev. destruct Ev as [q Hq]. rewrite Hq in Em.
      rewrite Nat.mul_comm, Nat.mod_mul in Em; lia.
Qed.

Lemma C04_lemma : forall rank cycle sub,
  Permutation (make_split_directions rank cycle sub) (seq 0 rank) /\
  make_split_directions rank (S cycle) sub = rev (make_split_directions rank cycle sub) /\
  make_split_directions rank cycle (S sub) = rev (make_split_directions rank cycle sub) /\
  make_split_directions rank 0 0 = seq 0 rank.
Proof.
  intros rank cycle sub.
  destruct (dirs_cases rank cycle sub) as [[E V]|[E V]];
  destruct (dirs_cases rank (S cycle) sub) as [[E1 V1]|[E1 V1]];
  destruct (dirs_cases rank cycle (S sub)) as [[E2 V2]|[E2 V2]];
  destruct (dirs_cases rank 0 0) as [[E0 V0]|[E0 V0]]; try discriminate V0;
  replace (S cycle + sub)%nat with (S (cycle + sub)) in V1 by lia;
  replace (cycle + S sub)%nat with (S (cycle + sub)) in V2 by lia;
  rewrite Nat.even_succ, <- Nat.negb_even, V in V1, V2; try discriminate;
  rewrite E, E1, E2, E0, ?rev_involutive; repeat split; auto.
  symmetry. apply Permutation_rev.
Qed.
