(** Lemmas for C161. *)
From Coq Require Import List ZArith Bool Lia.
From Verif Require Import FixedModel FixedSpec.
Import ListNotations.
Local Open Scope Z_scope.

Lemma contains_inside : forall rank b i, contains rank b i = true <-> inside rank b i.
Proof.
  intros rank b i. unfold contains, inside. rewrite forallb_forall. split.
  - intros H d D. specialize (H d). rewrite in_seq in H. assert (E := H ltac:(lia)). apply andb_prop in E as [A B]. apply Z.leb_le in A, B. lia.
  - intros H d D. apply in_seq in D. specialize (H d ltac:(lia)). apply andb_true_intro. split; apply Z.leb_le; lia.
Qed.

Lemma inside_intersect : forall rank a b i, inside rank (intersect a b) i <-> inside rank a i /\ inside rank b i.
Proof.
  intros rank a b i. unfold inside, intersect. cbn [smallEnd bigEnd]. split.
  - intros H. split; intros d D; specialize (H d D); lia.
  - intros [A B] d D. specialize (A d D). specialize (B d D). lia.
Qed.

Lemma inside_refine : forall rank b ratio i, (forall d, (d < rank)%nat -> 0 < ratio d) -> inside rank (refine b ratio) i <-> inside rank b (parent ratio i).
Proof.
  intros rank b ratio i P. unfold inside, refine, parent. cbn [smallEnd bigEnd]. split; intros H d D; specialize (H d D); specialize (P d D).
  - assert (A := Z.div_mod (i d) (ratio d) ltac:(lia)). assert (B := Z.mod_pos_bound (i d) (ratio d) P). nia.
  - assert (A := Z.div_mod (i d) (ratio d) ltac:(lia)). assert (B := Z.mod_pos_bound (i d) (ratio d) P). nia.
Qed.

Lemma refine_steps : forall rank ratio level steps b i, (forall d, (d < rank)%nat -> 0 < ratio d) -> (0 < level)%nat ->
  inside rank (RefineSteps ratio level steps b) i <-> inside rank b (ancestor ratio steps i).
Proof.
  intros rank ratio level steps b i P L. revert b. destruct level as [|level]; [lia|]. clear L.
  assert (G : forall steps i, ancestor ratio (S steps) i = parent ratio (ancestor ratio steps i)).
  { clear. induction steps as [|n IH]; intros i; [reflexivity|]. change (ancestor ratio (S n) (parent ratio i) = parent ratio (ancestor ratio n (parent ratio i))). apply IH. }
  induction steps as [|n IH]; intros b; [reflexivity|]. rewrite G. cbn [RefineSteps]. rewrite IH. cbn [GetRatioToCoarserLevel]. now apply inside_refine.
Qed.

Lemma refine_to_level : forall rank ratio level b i, (forall d, (d < rank)%nat -> 0 < ratio d) ->
  inside rank (RefineToLevel ratio b level) i <-> inside rank b (ancestor ratio level i).
Proof.
  intros rank ratio level b i P. unfold RefineToLevel. destruct level as [|level]; [reflexivity|]. apply refine_steps; [assumption|lia].
Qed.

Lemma fold_tags : forall rank region tiles tags patch i,
  let result := fold_left (fun tags tile => setVal rank tags (fst tile) (intersect region (snd tile))) tiles tags patch i in
  (visited rank tiles patch i -> inside rank region i -> result = 1) /\ (~ (visited rank tiles patch i /\ inside rank region i) -> result = tags patch i).
Proof.
  intros rank region tiles. induction tiles as [|[p tile] tiles IH]; intros tags patch i; cbn [fold_left fst snd].
  - split; [intros [t [[] _]]|reflexivity].
  - destruct (IH (setVal rank tags p (intersect region tile)) patch i) as [Y N].
    assert (S1 : patch = p -> inside rank tile i -> inside rank region i -> setVal rank tags p (intersect region tile) patch i = 1).
    { intros -> T R. unfold setVal. rewrite Nat.eqb_refl. cbn [andb]. replace (contains rank (intersect region tile) i) with true; [reflexivity|].
      symmetry. apply contains_inside, inside_intersect. now split. }
    assert (S0 : ~ (patch = p /\ inside rank tile i /\ inside rank region i) -> setVal rank tags p (intersect region tile) patch i = tags patch i).
    { intros H. unfold setVal. destruct (Nat.eqb_spec patch p) as [E|E]; [|reflexivity]. cbn [andb]. destruct (contains rank (intersect region tile) i) eqn:C; [|reflexivity].
      exfalso. apply H. apply contains_inside, inside_intersect in C as [A B]. auto. }
    assert (D : visited rank tiles patch i /\ inside rank region i \/ ~ (visited rank tiles patch i /\ inside rank region i)).
    { assert (DI : forall b, inside rank b i \/ ~ inside rank b i).
      { intros b. destruct (contains rank b i) eqn:C; [left; now apply contains_inside|right; intros H; apply contains_inside in H; congruence]. }
      assert (DV : visited rank tiles patch i \/ ~ visited rank tiles patch i).
      { clear - DI. induction tiles as [|[q t] tiles IH]; [right; intros [t [[] _]]|]. destruct IH as [[s [I J]]|IH]; [left; exists s; split; [now right|exact J]|].
        destruct (Nat.eq_dec q patch) as [<- |E]; [destruct (DI t) as [J|J]; [left; exists t; split; [now left|exact J]|]|]; right; intros [s [[I|I] K]].
        - injection I as <-. contradiction.
        - apply IH. exists s. auto.
        - injection I as Q _. contradiction.
        - apply IH. exists s. auto. }
      destruct (DI region); destruct DV; tauto. }
    split.
    + intros [t [[I|I] J]] R.
      * injection I as Q <-. destruct D as [[V _]|D]; [now apply Y|]. rewrite (N D). apply S1; auto.
      * apply Y; [exists t; auto|exact R].
    + intros H. rewrite N.
      * apply S0. intros [-> [T R]]. apply H. split; [exists tile; split; [now left|exact T]|exact R].
      * intros [[t [I J]] R]. apply H. split; [exists t; split; [now right|exact J]|exact R].
Qed.
