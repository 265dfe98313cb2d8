(** Lemmas for C162. *)
From Coq Require Import List Reals Arith Lia.
From Verif Require Import IgniteModel TubeIgniteModel TubeIgniteSpec.
Import ListNotations.

Lemma advance_level : forall sources tubes level, (length sources <= length tubes)%nat ->
  exists ss ts, AdvanceLevel sources tubes level = Some (ss, ts, None) /\ length ss = length sources /\ length ts = length tubes /\
    (forall k s t, nth_error sources k = Some s -> nth_error tubes k = Some t ->
       nth_error ss k = Some (if (level <? levels t)%nat then fst (fst (Ignite s t level)) else s) /\
       nth_error ts k = Some (if (level <? levels t)%nat then snd (fst (Ignite s t level)) else t)) /\
    (forall k, (length sources <= k)%nat -> nth_error ts k = nth_error tubes k).
Proof.
  induction sources as [|s sources IH]; intros tubes level L.
  - exists [], tubes. split; [reflexivity|]. split; [reflexivity|]. split; [reflexivity|]. split; [intros [|k] s t H; discriminate H|reflexivity].
  - destruct tubes as [|t tubes]; [cbn in L; lia|]. cbn [length] in L. destruct (IH tubes level ltac:(lia)) as (ss & ts & E & L1 & L2 & P & U).
    exists ((if (level <? levels t)%nat then fst (fst (Ignite s t level)) else s) :: ss), ((if (level <? levels t)%nat then snd (fst (Ignite s t level)) else t) :: ts).
    split; [|split; [cbn [length]; lia|split; [cbn [length]; lia|split]]].
    + unfold AdvanceLevel in E |- *. cbn [AdvanceTubes]. rewrite E. destruct (level <? levels t)%nat; [|reflexivity].
      unfold Ignite. destruct (advance (fst s) (snd s) level (current t level) (ratio t level)). reflexivity.
    + intros [|k] a b A B; cbn [nth_error] in A, B |- *.
      * injection A as <-. injection B as <-. split; reflexivity.
      * now apply P.
    + intros [|k] K; cbn [length] in K; [lia|]. cbn [nth_error]. apply U. lia.
Qed.

Lemma history_alone : forall calls sources, (forall tubes level, In (tubes, level) calls -> (length sources <= length tubes)%nat) ->
  exists ss outs, History sources calls = Some (ss, outs) /\ length ss = length sources /\ length outs = length calls /\
    forall k o times, nth_error sources k = Some (o, times) ->
      nth_error ss k = Some (o, snd (run_calls o times (own_calls k calls))) /\ own_ignitions k calls outs = fst (run_calls o times (own_calls k calls)).
Proof.
  induction calls as [|[tubes level] calls IH]; intros sources L.
  - exists sources, []. repeat split; auto.
  - destruct (advance_level sources tubes level ltac:(apply (L tubes level); now left)) as (ss & ts & E & L1 & L2 & P & U).
    destruct (IH ss) as (ss2 & outs & E2 & L3 & L4 & P2); [intros a b I; rewrite L1; apply (L a b); now right|].
    exists ss2, (ts :: outs). split; [cbn [History]; rewrite E, E2; reflexivity|]. split; [lia|]. split; [cbn [length]; lia|].
    intros k o times N.
    assert (K : (k < length tubes)%nat). { assert (k < length sources)%nat by (apply nth_error_Some; congruence). specialize (L tubes level ltac:(now left)). lia. }
    destruct (nth_error tubes k) as [t|] eqn:T; [|apply nth_error_None in T; lia].
    destruct (P k (o, times) t N T) as [PS PT].
    unfold own_calls, own_ignitions in *. cbn [combine flat_map fst snd]. rewrite T, PT.
    unfold Ignite in PS, PT |- *. cbn [fst snd] in PS, PT |- *. destruct (level <? levels t)%nat eqn:Q.
    + destruct (advance o times level (current t level) (ratio t level)) as [f times1] eqn:A. cbn [fst snd levels ignited] in PS, PT |- *. rewrite Q. cbn [app run_calls]. rewrite A.
      destruct (P2 k o times1 PS) as [R1 R2].
      destruct (run_calls o times1 _) as [fs times2] eqn:RC. cbn [fst snd] in *. split; [exact R1|]. rewrite R2. reflexivity.
    + rewrite Q. cbn [app]. now apply P2.
Qed.

Lemma history_options : forall calls sources ss outs, History sources calls = Some (ss, outs) -> map fst ss = map fst sources.
Proof.
  assert (G : forall sources tubes level ss ts r, AdvanceLevel sources tubes level = Some (ss, ts, r) -> map fst ss = map fst sources).
  { unfold AdvanceLevel. induction sources as [|s sources IH]; intros tubes level ss ts r; cbn [AdvanceTubes]; [intros [= <- _ _]; reflexivity|].
    destruct tubes as [|t tubes]; [discriminate|]. unfold Ignite at 1.
    destruct (advance (fst s) (snd s) level (current t level) (ratio t level)) as [f times].
    destruct (level <? levels t)%nat; destruct (AdvanceTubes levels Ignite sources tubes level) as [[[a b] c]|] eqn:E; try discriminate; intros [= <- _ _]; cbn [map fst]; f_equal; eapply IH; exact E. }
  induction calls as [|[tubes level] calls IH]; intros sources ss outs; cbn [History]; [intros [= <- _]; reflexivity|].
  destruct (AdvanceLevel sources tubes level) as [[[a b] c]|] eqn:E; [|discriminate]. destruct (History a calls) as [[d e]|] eqn:H; [|discriminate].
  intros [= <- _]. rewrite (IH _ _ _ H). eapply G. exact E.
Qed.

Lemma load_save : forall fresh sources, map fst fresh = map fst sources -> Load fresh (Save sources) = Some sources.
Proof.
  induction fresh as [|f fresh IH]; intros [|[o times] sources] E; cbn [map] in E; try discriminate; [reflexivity|]. injection E as E1 E2.
  unfold Save in *. cbn [map Load snd]. rewrite IH by exact E2. rewrite E1. reflexivity.
Qed.

Lemma nth_firstn : forall (A : Type) (l : list A) n k, (k < n)%nat -> nth_error (firstn n l) k = nth_error l k.
Proof. induction l as [|x l IH]; intros [|n] [|k] K; try lia; try reflexivity. cbn [firstn nth_error]. apply IH. lia. Qed.

Lemma nth_repeat_lt : forall (A : Type) (x : A) n k, (k < n)%nat -> nth_error (repeat x n) k = Some x.
Proof. induction n as [|n IH]; intros [|k] K; try lia; [reflexivity|]. cbn [repeat nth_error]. apply IH. lia. Qed.

Lemma history_app : forall calls later sources ss outs, History sources calls = Some (ss, outs) ->
  History sources (calls ++ later) = match History ss later with Some (ss, more) => Some (ss, outs ++ more) | None => None end.
Proof.
  induction calls as [|[tubes level] calls IH]; intros later sources ss outs; cbn [History app].
  - intros [= <- <-]. destruct (History sources later) as [[a b]|]; reflexivity.
  - destruct (AdvanceLevel sources tubes level) as [[[a b] c]|]; [|discriminate]. destruct (History a calls) as [[d e]|] eqn:H; [|discriminate].
    intros [= <- <-]. rewrite (IH later a d e H). destruct (History d later) as [[f g]|]; reflexivity.
Qed.
