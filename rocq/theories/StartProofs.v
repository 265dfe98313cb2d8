(** Proofs for C160. *)
From Coq Require Import String List Reals ZArith Lra.
From Verif Require Import StartModel StartSpec.
Import ListNotations.
Local Open Scope R_scope.

Lemma store_same {A} (d : pos -> A) i s : store d i s i = s.
Proof. unfold store. now destruct (list_eq_dec Z.eq_dec i i). Qed.
Lemma store_other {A} (d : pos -> A) i j s : j <> i -> store d i s j = d j.
Proof. intros N. unfold store. now destruct (list_eq_dec Z.eq_dec j i). Qed.
Lemma fold_store {A} (f : pos -> A) : forall cells (d : pos -> A) j, (In j cells -> fold_left (fun d i => store d i (f i)) cells d j = f j) /\ (~ In j cells -> fold_left (fun d i => store d i (f i)) cells d j = d j).
Proof.
  induction cells as [|i cells IH]; intros d j; cbn [fold_left]; [split; [intros []|reflexivity]|]. destruct (IH (store d i (f i)) j) as [I1 I2].
  destruct (in_dec (list_eq_dec Z.eq_dec) j cells) as [Y|N].
  - split; [intros _; now apply I1|intros H; exfalso; apply H; now right].
  - rewrite I2 by exact N. split; [intros [-> |H]; [apply store_same|contradiction]|intros H; apply store_other; intros ->; apply H; now left].
Qed.
Lemma fold_ext {A B} (f g : A -> B -> A) : (forall a b, f a b = g a b) -> forall l a, fold_left f l a = fold_left g l a.
Proof. intros E. induction l as [|b l IH]; intros a; [reflexivity|]. cbn. now rewrite E, IH. Qed.
Section Riemann.
Context {A X : Type} (t : fab_type) (alpha : pos -> R) (center : pos -> X) (geometry : X -> R) (l r z : A).
Definition value (i : pos) : A := if Req_EM_T (alpha i) 0 then z else if Rlt_dec (geometry (center i)) 0 then l else r.
Lemma tile_spec cells d j : type_fits t alpha cells -> (In j cells -> RiemannTile t alpha center geometry l r z d cells j = value j) /\ (~ In j cells -> RiemannTile t alpha center geometry l r z d cells j = d j).
Proof.
  intros [C Rg]. unfold RiemannTile. destruct t.
  - unfold setVal. destruct (fold_store (fun _ => z) cells d j) as [I1 I2]. split; [|exact I2]. intros I. rewrite I1 by exact I. unfold value. destruct (Req_EM_T (alpha j) 0) as [|N]; [reflexivity|]. exfalso. apply N. now apply C.
  - rewrite (fold_ext _ (fun d i => store d i (if Rlt_dec (geometry (center i)) 0 then l else r))) by (intros a b; destruct (Rlt_dec (geometry (center b)) 0); reflexivity).
    destruct (fold_store (fun i => if Rlt_dec (geometry (center i)) 0 then l else r) cells d j) as [I1 I2]. split; [|exact I2]. intros I. rewrite I1 by exact I. unfold value. destruct (Req_EM_T (alpha j) 0) as [E|N]; [|reflexivity]. exfalso. now apply (Rg eq_refl j I).
  - rewrite (fold_ext _ (fun d i => store d i (value i))) by (intros a b; unfold value; destruct (Req_EM_T (alpha b) 0), (Rlt_dec (geometry (center b)) 0); reflexivity).
    apply fold_store.
Qed.
Lemma data_spec : forall tiles d j, type_fits t alpha (concat tiles) ->
  (In j (concat tiles) -> RiemannData t alpha center geometry l r z tiles d j = value j) /\ (~ In j (concat tiles) -> RiemannData t alpha center geometry l r z tiles d j = d j).
Proof.
  induction tiles as [|c tiles IH]; intros d j F; [split; [intros []|reflexivity]|]. unfold RiemannData in *. cbn [fold_left concat] in *.
  assert (F1 : type_fits t alpha c) by (destruct F as [F1 F2]; split; intros E i I; [apply F1|apply F2]; try assumption; apply in_or_app; now left).
  assert (F2 : type_fits t alpha (concat tiles)) by (destruct F as [F2 F3]; split; intros E i I; [apply F2|apply F3]; try assumption; apply in_or_app; now right).
  destruct (IH (RiemannTile t alpha center geometry l r z d c) j F2) as [I1 I2]. destruct (tile_spec c d j F1) as [T1 T2].
  destruct (in_dec (list_eq_dec Z.eq_dec) j (concat tiles)) as [Y|N].
  - split; [intros _; now apply I1|intros H; exfalso; apply H; apply in_or_app; now right].
  - rewrite I2 by exact N. split; intros H; [apply T1; apply in_app_or in H; tauto|apply T2; intros K; apply H; apply in_or_app; now left].
Qed.
End Riemann.

Section Python.
Context {A X : Type} (g : gas_model A) (rank : nat) (py : option (X -> option answer)) (alpha : pos -> R) (center : pos -> X) (z : A).
(** The state of a cell, without any reactor *)
Definition state_of (i : pos) : option A :=
  match py with
  | Some f => match f (center i) with
              | Some ret => match parse g (ans_moles ret) with
                            | Some Y => Some (complete g {| fractions := Y; temperature := ans_T ret; density := density_of g Y (ans_T ret) (ans_p ret) |} (firstn rank (ans_u ret)))
                            | None => None end
              | None => None end
  | None => match parse g "O2:21,N2:79"%string with
            | Some Y => Some (complete g {| fractions := Y; temperature := 300; density := density_of g Y 300 101325 |} (repeat 0 rank))
            | None => None end
  end.
Lemma fn_state i r : match initial_data_fn g rank py (center i) r with Some (s, _) => Some s | None => None end = state_of i.
Proof.
  unfold initial_data_fn, state_of, SetMoleFractions. destruct py as [f|].
  - destruct (f (center i)) as [ret|]; [|reflexivity]. destruct (parse g (ans_moles ret)); reflexivity.
  - destruct (parse g "O2:21,N2:79"); reflexivity.
Qed.
Definition skipped (skip : bool) (i : pos) : bool := if skip then if Req_EM_T (alpha i) 0 then true else false else false.
Definition goal (skip : bool) (i : pos) : option A := if skipped skip i then Some z else state_of i.
Lemma cells_spec skip : forall cells d r,
  ((forall i, In i cells -> goal skip i <> None) -> exists d' r', PythonCells g rank py skip alpha center z cells d r = Some (d', r') /\
     (forall j, (In j cells -> Some (d' j) = goal skip j) /\ (~ In j cells -> d' j = d j))) /\
  ((exists i, In i cells /\ goal skip i = None) -> PythonCells g rank py skip alpha center z cells d r = None).
Proof.
  induction cells as [|i cells IH]; intros d r; cbn [PythonCells].
  - split; [intros _; exists d, r; split; [reflexivity|intros j; split; [intros []|reflexivity]]|intros (i & [] & _)].
  - fold (skipped skip i). pose proof (fn_state i r) as FS.
    assert (ST : forall s d' j, goal skip i = Some s -> ((In j cells -> Some (d' j) = goal skip j) /\ (~ In j cells -> d' j = store d i s j)) -> (i = j \/ In j cells -> Some (d' j) = goal skip j) /\ (~ (i = j \/ In j cells) -> d' j = d j)).
    { intros s d' j G [H1 H2]. destruct (in_dec (list_eq_dec Z.eq_dec) j cells) as [Y|N]; [split; [auto|intros H; exfalso; tauto]|]. rewrite H2 by exact N.
      split; [intros [<- |H]; [now rewrite store_same|contradiction]|intros H; apply store_other; intros ->; tauto]. }
    destruct (skipped skip i) eqn:E.
    + destruct (IH (store d i z) r) as [I1 I2]. split.
      * intros H. destruct I1 as (d' & r' & P & Q); [intros k K; apply H; now right|]. exists d', r'. split; [exact P|]. intros j. apply (ST z); [unfold goal; now rewrite E|apply Q].
      * intros (k & [<- |K] & G); [unfold goal in G; rewrite E in G; discriminate|]. apply I2. eauto.
    + destruct (initial_data_fn g rank py (center i) r) as [[s r1]|].
      * destruct (IH (store d i s) r1) as [I1 I2]. assert (G : goal skip i = Some s) by (unfold goal; now rewrite E). split.
        -- intros H. destruct I1 as (d' & r' & P & Q); [intros k K; apply H; now right|]. exists d', r'. split; [exact P|]. intros j. apply (ST s); [exact G|apply Q].
        -- intros (k & [<- |K] & G'); [congruence|]. apply I2. eauto.
      * assert (G : goal skip i = None) by (unfold goal; now rewrite E). split; [intros H; exfalso; now apply (H i (or_introl eq_refl))|reflexivity].
Qed.
End Python.
