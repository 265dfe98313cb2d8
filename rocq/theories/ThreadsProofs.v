(** Proofs for C147 and C148. *)
From Coq Require Import List ZArith Reals Bool Lra Lia Permutation.
From Verif Require Import FeedbackModel FeedbackSpec FeedbackProofs ThreadsModel.
Import ListNotations.
Local Open Scope R_scope.

Section reduce.
Context {A : Type} (op : A -> A -> A).
Hypothesis assoc : forall a b c, op a (op b c) = op (op a b) c.
Hypothesis comm : forall a b, op a b = op b a.

Lemma fold_op l x : fold_left op l x = fold_right op x l.
Proof.
  revert x. induction l as [|a r IH]; intros x; cbn; [reflexivity|]. rewrite IH. clear IH.
  induction r as [|b r IH]; cbn; [apply comm|]. rewrite IH, !assoc, (comm b a). reflexivity.
Qed.
Lemma fold_perm l l' x : Permutation l l' -> fold_right op x l = fold_right op x l'.
Proof. induction 1; cbn; congruence. Qed.

(** Reduction of a non-empty list, as a relation to avoid a default *)
Definition red (l : list A) : option A := Accumulate op l.
Lemma red_change t v : forall l l', change t (fun x => op x v) l = Some l' -> exists r r', red l = Some r /\ red l' = Some r' /\ r' = op r v.
Proof.
  unfold red, Accumulate. induction t as [|t IH]; intros [|x r] l' E; cbn in E; try discriminate.
  - injection E as <-. eexists _, _. split; [reflexivity|]. split; [reflexivity|]. rewrite !fold_op.
    induction r as [|a r IHr]; cbn; [reflexivity|]. rewrite IHr, assoc. reflexivity.
  - destruct (change t (fun x => op x v) r) as [r'|] eqn:E'; [|discriminate]. injection E as <-.
    destruct (IH _ _ E') as (a & a' & Ha & Ha' & ->). destruct r as [|y r]; [discriminate|]. destruct r' as [|y' r']; [discriminate|].
    injection Ha as Ha. injection Ha' as Ha'. eexists _, _. split; [reflexivity|]. split; [reflexivity|]. cbn [fold_left].
    rewrite (fold_op r y) in Ha. rewrite (fold_op r' y') in Ha'. rewrite (fold_op r'), (fold_op r).
    assert (G : forall l z w, fold_right op (op z w) l = op z (fold_right op w l)).
    { clear - assoc comm. induction l as [|b l IHl]; intros z w; cbn; [reflexivity|]. rewrite IHl, !assoc, (comm b z). reflexivity. }
    rewrite !G, Ha, Ha', !assoc. reflexivity.
Qed.
Lemma change_ok t (f : A -> A) l : (t < length l)%nat -> exists l', change t f l = Some l' /\ length l' = length l.
Proof.
  revert l. induction t as [|t IH]; intros [|x r] H; cbn in *; try lia; [eexists; split; reflexivity|].
  destruct (IH r ltac:(lia)) as (r' & -> & E). eexists. split; [reflexivity|]. cbn. now rewrite E.
Qed.
Lemma parallel_reduce : forall (passes : list (nat * A)) l r, Forall (fun p => fst p < length l)%nat passes -> red l = Some r ->
  exists l', parallel (map (fun p => (fst p, fun x => op x (snd p))) passes) l = Some l' /\ length l' = length l /\
    red l' = Some (fold_right op r (map snd passes)).
Proof.
  induction passes as [|[t v] ps IH]; intros l r HF Hr; cbn.
  - eauto.
  - apply Forall_cons_iff in HF. destruct HF as [H1 H2]. cbn in H1.
    destruct (change_ok t (fun x => op x v) l H1) as (l1 & E1 & L1). rewrite E1.
    destruct (red_change _ _ _ _ E1) as (a & a' & Ha & Ha' & ->). rewrite Hr in Ha. injection Ha as <-.
    destruct (IH l1 (op r v)) as (l' & E & L & Hred); [rewrite L1; exact H2|exact Ha'|].
    exists l'. split; [exact E|]. split; [congruence|]. rewrite Hred. f_equal.
    clear - assoc comm. induction (map snd ps) as [|b l IHl]; cbn; [apply comm|]. rewrite IHl, !assoc, (comm b v). reflexivity.
Qed.
Lemma red_repeat e n : op e e = e -> (0 < n)%nat -> red (OmpLocal n e) = Some e.
Proof.
  intros He Hn. destruct n as [|n]; [lia|]. unfold red, OmpLocal, Accumulate. cbn [repeat]. f_equal.
  clear Hn. induction n as [|n IH]; cbn; [reflexivity|]. rewrite He. exact IH.
Qed.
End reduce.

Lemma min_red l : Min l = Accumulate Rmin l.
Proof.
  destruct l as [|x r]; [reflexivity|]. cbn. f_equal. revert x. induction r as [|y r IH]; intros x; cbn; [reflexivity|]. rewrite IH.
  f_equal. unfold Rmin. destruct (Rlt_dec y x), (Rle_dec x y); lra.
Qed.

(** Means *)
Lemma fab_sum_share b f : fab_sum f (inter b (f_box f)) = share b f.
Proof.
  unfold fab_sum. assert (E : forall l a, fold_left (fun acc ij => acc + f_data f (fst ij) (snd ij)) l a = a + total (fun ij => f_data f (fst ij) (snd ij)) l).
  { induction l as [|x l IH]; intros a; cbn; [lra|]. rewrite IH. lra. }
  rewrite E, (total_perm _ _ _ (inter_perm b (f_box f))), total_filter. unfold share. lra.
Qed.
Lemma local_mean_shares b n tiles : (0 < n)%nat -> Forall (fun t => fst t < n)%nat tiles ->
  local_mean b n tiles = Some (shares b (map snd tiles) / INR (numPts b)).
Proof.
  intros Hn HF. unfold local_mean.
  set (passes := map (fun tf : nat * fab => (fst tf, share b (snd tf) / INR (numPts b))) tiles).
  assert (E : map (fun tf : nat * fab => (fst tf, fun v : R => v + fab_sum (snd tf) (inter b (f_box (snd tf))) / INR (numPts b))) tiles =
              map (fun p => (fst p, fun x : R => x + snd p)) passes).
  { unfold passes. rewrite map_map. apply map_ext. intros [t f]. cbn. now rewrite fab_sum_share. }
  rewrite E. destruct (parallel_reduce Rplus (fun a b c => eq_sym (Rplus_assoc a b c)) Rplus_comm passes (OmpLocal n 0) 0) as (l' & -> & _ & Hr).
  - unfold passes, OmpLocal. rewrite repeat_length. apply Forall_map. exact HF.
  - apply red_repeat; [ring|exact Hn].
  - unfold red in Hr. rewrite Hr. f_equal. unfold passes. rewrite map_map. cbn.
    clear. induction tiles as [|[t f] r IH]; cbn; [unfold Rdiv; lra|]. rewrite IH. unfold Rdiv. lra.
Qed.
Lemma mean_shares b ranks : Forall (fun r => 0 < fst r /\ Forall (fun t => fst t < fst r) (snd r))%nat ranks ->
  GetMeanValueInBox b ranks = Some (shares b (map snd (flat_map snd ranks)) / INR (numPts b)).
Proof.
  induction 1 as [|[n tiles] r [H1 H2] HF IH]; cbn [GetMeanValueInBox flat_map]; [cbn; f_equal; unfold Rdiv; lra|].
  cbn [fst snd] in *. rewrite local_mean_shares, IH by assumption. f_equal. rewrite map_app, shares_app. unfold Rdiv. lra.
Qed.
