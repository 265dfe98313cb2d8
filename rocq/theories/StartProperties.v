(** C160: initial data on patches with embedded boundaries. *)
From Coq Require Import String List Reals ZArith Lra.
From Verif Require Import StartModel StartSpec StartProofs.
Import ListNotations.
Local Open Scope R_scope.

(** For every geometry, all volume fractions and all tilings of a patch of a fitting type: cells with fluid have the left state exactly if their centre is inside,
    and the right one otherwise, covered cells are zero, no other cell changes. The right hand sides do not depend on the type or the tiles. *)
Theorem C160_riemann : forall (A X : Type) t alpha (center : pos -> X) geometry (l r zero : A) tiles data i, type_fits t alpha (concat tiles) ->
  let result := RiemannData t alpha center geometry l r zero tiles data i in
  (In i (concat tiles) -> alpha i = 0 -> result = zero) /\
  (In i (concat tiles) -> alpha i <> 0 -> geometry (center i) < 0 -> result = l) /\
  (In i (concat tiles) -> alpha i <> 0 -> 0 <= geometry (center i) -> result = r) /\
  (~ In i (concat tiles) -> result = data i).
Proof.
  intros A X t alpha center geometry l r zero tiles data i F result. destruct (data_spec t alpha center geometry l r zero tiles data i F) as [I O]. unfold result.
  split; [|split; [|split; [|exact O]]]; intros H; rewrite (I H); unfold value; intros.
  - destruct (Req_EM_T (alpha i) 0); [reflexivity|contradiction].
  - destruct (Req_EM_T (alpha i) 0); [contradiction|]. destruct (Rlt_dec (geometry (center i)) 0); [reflexivity|lra].
  - destruct (Req_EM_T (alpha i) 0); [contradiction|]. destruct (Rlt_dec (geometry (center i)) 0); [lra|reflexivity].
Qed.
Print Assumptions C160_riemann.

(** The same for data given by a Python function. For patches of a fitting type, every earlier state of the reactor and
    all tilings: if the function has an answer with a known mixture for each cell with fluid, then each cell of the tiles with fluid has the state of this answer
    (with as many velocities as there are axes) and covered cells are zero. All cells outside of the tiles and their ghost cells are unchanged. *)
Theorem C160_python : forall (A X : Type) (g : gas_model A) rank (f : X -> option answer) t alpha (center : pos -> X) (zero : A) tiles data r,
  (forall tile grown i, In (tile, grown) tiles -> In i tile -> In i grown) -> type_fits t alpha (concat (map snd tiles)) ->
  (forall i, In i (concat (map fst tiles)) -> alpha i <> 0 -> exists a Y, f (center i) = Some a /\ parse g (ans_moles a) = Some Y) ->
  exists data' r', PythonData g rank (Some f) t alpha center zero tiles data r = Some (data', r') /\
    (forall i a Y, In i (concat (map fst tiles)) -> alpha i <> 0 -> f (center i) = Some a -> parse g (ans_moles a) = Some Y ->
       data' i = complete g {| fractions := Y; temperature := ans_T a; density := density_of g Y (ans_T a) (ans_p a) |} (firstn rank (ans_u a))) /\
    (forall i, In i (concat (map fst tiles)) -> alpha i = 0 -> data' i = zero) /\
    (forall i, ~ In i (concat (map snd tiles)) -> data' i = data i).
Proof.
  intros A X g rank f t alpha center zero tiles.
  set (st := state_of g rank (Some f) center).
  set (want := fun i => if Req_EM_T (alpha i) 0 then Some zero else st i).
  assert (M : forall tiles data r, (forall tile grown i, In (tile, grown) tiles -> In i tile -> In i grown) -> type_fits t alpha (concat (map snd tiles)) ->
    (forall i, In i (concat (map fst tiles)) -> want i <> None) ->
    exists data' r', PythonData g rank (Some f) t alpha center zero tiles data r = Some (data', r') /\
      forall i, (In i (concat (map fst tiles)) -> Some (data' i) = want i) /\ (~ In i (concat (map fst tiles)) -> data' i = data i \/ (t = covered /\ In i (concat (map snd tiles)) /\ data' i = zero)) /\ (~ In i (concat (map snd tiles)) -> data' i = data i)).
  { clear tiles. induction tiles as [|[tile grown] tiles IH]; intros data r S F W.
    - exists data, r. split; [reflexivity|]. intros i. split; [intros []|]. split; [left; reflexivity|reflexivity].
    - cbn [map fst snd concat] in F, W |- *. cbn [PythonData].
      assert (FT : type_fits t alpha grown) by (destruct F as [F1 F2]; split; intros E i I; [apply F1|apply F2]; try assumption; apply in_or_app; now left).
      assert (FR : type_fits t alpha (concat (map snd tiles))) by (destruct F as [F1 F2]; split; intros E i I; [apply F1|apply F2]; try assumption; apply in_or_app; now right).
      assert (SR : forall tile grown i, In (tile, grown) tiles -> In i tile -> In i grown) by (intros a b i I; apply (S a b); now right).
      assert (ST : forall i, In i tile -> In i grown) by (intros i; apply (S tile grown); now left).
      assert (WR : forall i, In i (concat (map fst tiles)) -> want i <> None) by (intros i I; apply W; apply in_or_app; now right).
      match goal with |- context [match ?step with Some _ => _ | None => None end] => assert (T : exists d1 r1, step = Some (d1, r1) /\
        forall i, (In i tile -> Some (d1 i) = want i) /\ (~ In i tile -> d1 i = data i \/ (t = covered /\ In i grown /\ d1 i = zero)) /\ (~ In i grown -> d1 i = data i)) end.
      { destruct t.
        - exists (setVal zero data grown), r. split; [reflexivity|]. intros i. unfold setVal. destruct (fold_store (fun _ => zero) grown data i) as [I1 I2]. split; [|split].
          + intros I. rewrite I1 by auto. unfold want. destruct (Req_EM_T (alpha i) 0) as [|N]; [reflexivity|]. exfalso. apply N. apply FT; auto.
          + intros _. destruct (in_dec (list_eq_dec Z.eq_dec) i grown) as [Y|N]; [right; auto|left; auto].
          + exact I2.
        - destruct (cells_spec g rank (Some f) alpha center zero false tile data r) as [C _]. destruct C as (d1 & r1 & P & Q).
          + intros i I. unfold goal. cbn [skipped]. assert (Wi := W i (in_or_app _ _ _ (or_introl I))). unfold want in Wi. destruct (Req_EM_T (alpha i) 0) as [E|]; [exfalso; now apply (proj2 FT eq_refl i (ST i I))|exact Wi].
          + exists d1, r1. split; [exact P|]. intros i. destruct (Q i) as [Q1 Q2]. split; [|split; [left; auto|intros N; apply Q2; auto]].
            intros I. rewrite Q1 by exact I. unfold goal, want. cbn [skipped]. destruct (Req_EM_T (alpha i) 0) as [E|]; [exfalso; now apply (proj2 FT eq_refl i (ST i I))|reflexivity].
        - destruct (cells_spec g rank (Some f) alpha center zero true tile data r) as [C _]. 
          assert (GW : forall i, goal g rank (Some f) alpha center zero true i = want i) by (intros i; unfold goal, want, skipped; destruct (Req_EM_T (alpha i) 0); reflexivity).
          destruct C as (d1 & r1 & P & Q); [intros i I; rewrite GW; apply W; apply in_or_app; now left|].
          exists d1, r1. split; [exact P|]. intros i. destruct (Q i) as [Q1 Q2]. split; [intros I; rewrite <- GW; auto|split; [left; auto|intros N; apply Q2; auto]]. }
      destruct T as (d1 & r1 & -> & T). destruct (IH d1 r1 SR FR WR) as (d2 & r2 & P & Q). exists d2, r2. split; [exact P|]. intros i. destruct (T i) as (T1 & T2 & T3). destruct (Q i) as (Q1 & Q2 & Q3). split; [|split].
      + intros I. destruct (in_dec (list_eq_dec Z.eq_dec) i (concat (map fst tiles))) as [Y|N]; [auto|]. apply in_app_or in I. destruct I as [I|I]; [|contradiction].
        destruct (Q2 N) as [E|(C & G & E)]; [rewrite E; auto|]. rewrite E. unfold want. destruct (Req_EM_T (alpha i) 0) as [|NE]; [reflexivity|]. exfalso. apply NE. now apply FR.
      + intros N. assert (N1 : ~ In i tile) by (intros K; apply N; apply in_or_app; now left). assert (N2 : ~ In i (concat (map fst tiles))) by (intros K; apply N; apply in_or_app; now right).
        destruct (Q2 N2) as [E|(C & G & E)]; [|right; split; [exact C|split; [apply in_or_app; now right|exact E]]]. rewrite E. destruct (T2 N1) as [E'|(C & G & E')]; [now left|right; split; [exact C|split; [apply in_or_app; now left|exact E']]].
      + intros N. rewrite Q3, T3; [reflexivity| |]; intros K; apply N; apply in_or_app; auto. }
  intros data r S F H. destruct (M tiles data r S F) as (data' & r' & P & Q).
  { intros i I. unfold want. destruct (Req_EM_T (alpha i) 0) as [|N]; [discriminate|]. destruct (H i I N) as (a & Y & E1 & E2). unfold st, state_of. rewrite E1, E2. discriminate. }
  exists data', r'. split; [exact P|]. split; [|split].
  - intros i a Y I N E1 E2. destruct (Q i) as [Q1 _]. specialize (Q1 I). unfold want, st, state_of in Q1. destruct (Req_EM_T (alpha i) 0); [contradiction|]. rewrite E1, E2 in Q1. now injection Q1.
  - intros i I Z. destruct (Q i) as [Q1 _]. specialize (Q1 I). unfold want in Q1. destruct (Req_EM_T (alpha i) 0); [|contradiction]. now injection Q1.
  - intros i N. now apply (Q i).
Qed.
Print Assumptions C160_python.

(** Unlike for the Riemann problem, ghost cells of patches with fluid get no data from a Python function: only the cells of the tiles change. *)
Theorem C160_ghost : forall (A X : Type) (g : gas_model A) rank py t alpha (center : pos -> X) (zero : A) tiles data r data' r' i, t <> covered ->
  PythonData g rank py t alpha center zero tiles data r = Some (data', r') -> ~ In i (concat (map fst tiles)) -> data' i = data i.
Proof.
  intros A X g rank py t alpha center zero tiles data r data' r' i C. revert data r.
  induction tiles as [|[tile grown] tiles IH]; intros data r; cbn [PythonData map fst concat]; [now intros [= -> _]|].
  intros H N. assert (N1 : ~ In i tile) by (intros K; apply N; apply in_or_app; now left). assert (N2 : ~ In i (concat (map fst tiles))) by (intros K; apply N; apply in_or_app; now right).
  assert (G : forall skip d1 r1, PythonCells g rank py skip alpha center zero tile data r = Some (d1, r1) -> d1 i = data i).
  { intros skip d1 r1 E. destruct (cells_spec g rank py alpha center zero skip tile data r) as [S1 S2].
    assert (D : forall l, (forall j, In j l -> goal g rank py alpha center zero skip j <> None) \/ (exists j, In j l /\ goal g rank py alpha center zero skip j = None)).
    { induction l as [|j l IHl]; [left; intros j []|]. destruct (goal g rank py alpha center zero skip j) eqn:E1; [|right; exists j; split; [now left|exact E1]].
      destruct IHl as [L|(k & K & L)]; [left; intros k [<- |K]; [congruence|auto]|right; exists k; split; [now right|exact L]]. }
    destruct (D tile) as [Y|Y]; [|rewrite (S2 Y) in E; discriminate]. destruct (S1 Y) as (d2 & r2 & P & Q). rewrite P in E. injection E as <- <-. now apply Q. }
  destruct t; [congruence| |].
  - destruct (PythonCells g rank py false alpha center zero tile data r) as [[d1 r1]|] eqn:E; [|discriminate]. rewrite (IH d1 r1 H N2). now apply (G false d1 r1).
  - destruct (PythonCells g rank py true alpha center zero tile data r) as [[d1 r1]|] eqn:E; [|discriminate]. rewrite (IH d1 r1 H N2). now apply (G true d1 r1).
Qed.
Print Assumptions C160_ghost.

(** An answer with an unknown mixture, or none, for a cell with fluid in the first tile ends the program. *)
Theorem C160_errors : forall (A X : Type) (g : gas_model A) rank (f : X -> option answer) alpha (center : pos -> X) (zero : A) tile grown tiles data r i,
  In i tile -> alpha i <> 0 -> (f (center i) = None \/ exists a, f (center i) = Some a /\ parse g (ans_moles a) = None) ->
  PythonData g rank (Some f) singlevalued alpha center zero ((tile, grown) :: tiles) data r = None /\ PythonData g rank (Some f) regular alpha center zero ((tile, grown) :: tiles) data r = None.
Proof.
  intros A X g rank f alpha center zero tile grown tiles data r i I N E.
  assert (S : state_of g rank (Some f) center i = None) by (unfold state_of; destruct E as [-> |(a & -> & ->)]; reflexivity).
  cbn [PythonData]. destruct (cells_spec g rank (Some f) alpha center zero true tile data r) as [_ C1]. destruct (cells_spec g rank (Some f) alpha center zero false tile data r) as [_ C2].
  rewrite C1, C2; [auto| |]; exists i; (split; [exact I|]); unfold goal, skipped; try exact S. destruct (Req_EM_T (alpha i) 0); [contradiction|exact S].
Qed.
Print Assumptions C160_errors.
(** Without a function every cell with fluid is air of 300 K and 101325 Pa at rest. *)
Theorem C160_default : forall (A X : Type) (g : gas_model A) rank alpha (center : pos -> X) (zero : A) tile grown data r Y, parse g "O2:21,N2:79" = Some Y ->
  exists data' r', PythonData g rank None singlevalued alpha center zero [(tile, grown)] data r = Some (data', r') /\
    forall i, In i tile -> alpha i <> 0 -> data' i = complete g {| fractions := Y; temperature := 300; density := density_of g Y 300 101325 |} (repeat 0 rank).
Proof.
  intros A X g rank alpha center zero tile grown data r Y E. cbn [PythonData]. destruct (cells_spec g rank None alpha center zero true tile data r) as [C _].
  destruct C as (d1 & r1 & P & Q); [intros i I; unfold goal, state_of; rewrite E; destruct (skipped alpha true i); discriminate|].
  rewrite P. exists d1, r1. split; [reflexivity|]. intros i I N. destruct (Q i) as [Q1 _]. specialize (Q1 I). unfold goal, state_of, skipped in Q1. rewrite E in Q1. destruct (Req_EM_T (alpha i) 0); [contradiction|]. now injection Q1.
Qed.
Print Assumptions C160_default.

(** Two cells, the second one covered, on a patch with a wall; centres 0 and 1, the line between the states at 1/2. *)
Definition alpha_ex (i : pos) : R := match i with [0%Z] => 1 | _ => 0 end.
Definition gas_ex : gas_model (list R) := {| parse := fun s => if String.eqb s "X" then None else Some [1]; density_of := fun _ T p => p / T; complete := fun r u => density r :: u |}.
Definition f_ex (x : R) : option answer := Some {| ans_T := 2; ans_p := 6; ans_moles := "O2:1"; ans_u := [x; 5; 7] |}.
Example C160_example :
  type_fits singlevalued alpha_ex (concat [[[0%Z]]; [[1%Z]]]) /\ alpha_ex [0%Z] <> 0 /\ alpha_ex [1%Z] = 0 /\ IZR (hd 0%Z [0%Z]) - 1 / 2 < 0 /\
  (forall i, In i (concat (map fst [([[0%Z]; [1%Z]], [[-1]; [0]; [1]; [2]]%Z)])) -> alpha_ex i <> 0 -> exists a Y, f_ex (IZR (hd 0%Z i)) = Some a /\ parse gas_ex (ans_moles a) = Some Y) /\
  parse gas_ex "X" = None /\ parse gas_ex "O2:21,N2:79" <> None.
Proof.
  split; [split; discriminate|]. split; [cbn; lra|]. split; [reflexivity|]. split; [cbn; lra|]. split; [intros i _ _; exists {| ans_T := 2; ans_p := 6; ans_moles := "O2:1"; ans_u := [IZR (hd 0%Z i); 5; 7] |}, [1]; split; reflexivity|]. split; [reflexivity|discriminate].
Qed.
