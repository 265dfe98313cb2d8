(** Lemmas for C164. *)
From Coq Require Import String List Reals ZArith Lia.
From Verif Require Import TableModel TableSpec.
Import ListNotations.
Local Open Scope string_scope.

Lemma append_last : forall (X : Type) (fill : X) l x, append fill l x = (l ++ [x])%list.
Proof. intros X fill l x. unfold append. induction l as [|y l IH]; [reflexivity|]. cbn [app length write_at]. now rewrite IH. Qed.

Lemma put_same : forall fs p e, put fs p e p = e.
Proof. intros. unfold put. now rewrite String.eqb_refl. Qed.

Lemma put_other : forall fs p e q, q <> p -> put fs p e q = fs q.
Proof. intros fs p e q H. unfold put. destruct (String.eqb_spec q p); [contradiction|reflexivity]. Qed.

Lemma first_free : forall fs path steps i name, FirstFree fs path i steps = Some name -> fs name = None.
Proof.
  intros fs path. induction steps as [|n IH]; intros i name; cbn [FirstFree]; [discriminate|].
  destruct (fs (numbered path i)) eqn:E; [apply IH|]. intros [= <-]. exact E.
Qed.

Lemma first_free_exists : forall fs path steps i j, (i <= j < i + steps)%nat -> fs (numbered path j) = None -> exists name, FirstFree fs path i steps = Some name.
Proof.
  intros fs path. induction steps as [|n IH]; intros i j J F; [lia|]. cbn [FirstFree]. destruct (fs (numbered path i)) eqn:E; [|eexists; reflexivity].
  apply (IH (S i) j); [|exact F]. destruct (Nat.eq_dec i j) as [-> |N]; [congruence|lia].
Qed.

Definition empty_table : table := {| fields := map fst GetFieldMap; data := []; times := []; cycles := [] |}.

Lemma construct : forall limit fs path, fs path = None \/ has_free_name limit fs path ->
  exists fs' fp, Construct limit fs path = (fs', fp) /\ fs' fp = Some (Table empty_table) /\ (fs path <> Some NonFile -> fp = path) /\
    forall p e, fs p = Some e -> exists q, fs' q = Some e /\ q <> fp /\ (p <> path \/ e = NonFile -> q = p).
Proof.
  intros limit fs path H. unfold Construct. destruct (fs path) as [e0|] eqn:E0.
  - destruct H as [H|(i & I & F)]; [discriminate|]. destruct (first_free_exists fs path limit 1 i ltac:(lia) F) as (name & N). rewrite N. pose proof (first_free _ _ _ _ _ N) as NN.
    assert (NP : name <> path) by congruence.
    assert (G : e0 <> NonFile -> exists fs' fp, (CreateHdf5Database (put (put fs name (Some e0)) path None) path, path) = (fs', fp) /\ fs' fp = Some (Table empty_table) /\
      (Some e0 <> Some NonFile -> fp = path) /\ forall p e, fs p = Some e -> exists q, fs' q = Some e /\ q <> fp /\ (p <> path \/ e = NonFile -> q = p)).
    { intros NF. eexists; eexists; split; [reflexivity|]. unfold CreateHdf5Database. rewrite put_same. split; [apply put_same|]. split; [reflexivity|].
      intros p e P. destruct (string_dec p path) as [-> |D].
      - exists name. rewrite !put_other by assumption. rewrite put_same. split; [congruence|]. split; [exact NP|]. intros [X|X]; [contradiction|]. congruence.
      - exists p. rewrite !put_other by (assumption || congruence). auto. }
    destruct e0 as [t|c|]; [apply G; discriminate|apply G; discriminate|]. clear G.
    eexists; eexists; split; [reflexivity|]. unfold CreateHdf5Database. rewrite NN. split; [apply put_same|]. split; [congruence|].
    intros p e P. exists p. assert (p <> name) by congruence. rewrite put_other by assumption. auto.
  - eexists; eexists; split; [reflexivity|]. unfold CreateHdf5Database. rewrite E0. split; [apply put_same|]. split; [reflexivity|].
    intros p e P. exists p. assert (p <> path) by congruence. rewrite put_other by assumption. auto.
Qed.

Lemma outputs : forall calls fs fp t, fs fp = Some (Table t) ->
  let fs' := fold_left (fun fs call => Output fs fp call) calls fs in
  fs' fp = Some (Table {| fields := fields t; data := data t ++ map (fun c => map (fun field => snd field (fst (fst c))) GetFieldMap) calls;
                          times := times t ++ map (fun c => snd (fst c)) calls; cycles := cycles t ++ map snd calls |}) /\ forall p, p <> fp -> fs' p = fs p.
Proof.
  induction calls as [|[[s time] cycle] calls IH]; intros fs fp t E; cbn [fold_left map fst snd].
  - rewrite !app_nil_r. split; [rewrite E; destruct t; reflexivity|reflexivity].
  - assert (O : Output fs fp (s, time, cycle) = put fs fp (Some (Table {| fields := fields t; data := data t ++ [map (fun field => snd field s) GetFieldMap];
      times := times t ++ [time]; cycles := cycles t ++ [cycle] |}))).
    { unfold Output, WriteHdf5Database. rewrite E. rewrite !append_last. reflexivity. }
    rewrite O. match goal with |- context [put fs fp (Some (Table ?u))] => destruct (IH (put fs fp (Some (Table u))) fp u (put_same fs fp (Some (Table u)))) as [A B] end. cbn [fields data times cycles] in A. split.
    + etransitivity; [exact A|]. rewrite <- !app_assoc. reflexivity.
    + intros p P. rewrite B by exact P. now apply put_other.
Qed.

Lemma headings : map fst GetFieldMap = ["compressor_SEC_Mode"; "compressor_mass_flow_in"; "compressor_mass_flow_out"; "compressor_power"; "compressor_pressure"; "compressor_temperature";
  "current_rpm"; "efficiency"; "fuel_consumption"; "fuel_consumption_rate"; "power_out"; "turbine_mass_flow_in"; "turbine_mass_flow_out"; "turbine_power"; "turbine_pressure"; "turbine_temperature"].
Proof. reflexivity. Qed.

Lemma column : forall s name v, means s name v -> exists j, nth_error (map fst GetFieldMap) j = Some name /\ nth_error (map (fun field => snd field s) GetFieldMap) j = Some v.
Proof.
  intros s name v M. destruct M;
    first [ solve [exists 0%nat; split; cbn; try rewrite H; reflexivity] | solve [exists 1%nat; split; reflexivity] | solve [exists 2%nat; split; reflexivity] | solve [exists 3%nat; split; reflexivity]
          | solve [exists 4%nat; split; reflexivity] | solve [exists 5%nat; split; reflexivity] | solve [exists 6%nat; split; reflexivity] | solve [exists 7%nat; split; reflexivity]
          | solve [exists 8%nat; split; reflexivity] | solve [exists 9%nat; split; reflexivity] | solve [exists 10%nat; split; reflexivity] | solve [exists 11%nat; split; reflexivity]
          | solve [exists 12%nat; split; reflexivity] | solve [exists 13%nat; split; reflexivity] | solve [exists 14%nat; split; reflexivity] | solve [exists 15%nat; split; reflexivity] ].
Qed.
