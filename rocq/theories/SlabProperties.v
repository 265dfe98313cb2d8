(** C165: layout of the states of probes in a file. *)
From Coq Require Import List Reals Arith Lia Lra.
From Verif Require Import SlabModel SlabSpec SlabProofs.
Import ListNotations.
Local Open Scope nat_scope.

(** For all numbers of probes, components and levels, and states recorded in any order: the entry of the file for a field and a probe is the value of this component at this probe,
    on the finest level on which it is not zero. *)
Theorem C165_data : forall n m nlevel hits p f, (forall k c l v, In (k, c, l, v) hits -> k < n /\ c < m) -> 0 < nlevel -> p < n -> f < m ->
  h5_entry (GatherStates n m nlevel hits) n f p = finest hits p f (nlevel - 1).
Proof.
  intros n m nlevel hits p f B L P F. unfold h5_entry, GatherStates, FillLevels.
  replace (left3 n m 0 0 (nlevel - 1) + (f * n + p)) with (left3 n m p f (nlevel - 1)) by (unfold left3; lia).
  apply (fill_levels n m hits p f (nlevel - 1) B P F). lia.
Qed.
Print Assumptions C165_data.

(** In particular, if the components of a probe are recorded once, on one level only, the entries of this probe are these values; probes and fields are not mixed up. *)
Theorem C165_single : forall n m nlevel before after p f level v, (forall k c l w, In (k, c, l, w) (before ++ (p, f, level, v) :: after) -> k < n /\ c < m) -> level < nlevel -> p < n -> f < m ->
  (forall l w, ~ In (p, f, l, w) (before ++ after)) ->
  h5_entry (GatherStates n m nlevel (before ++ (p, f, level, v) :: after)) n f p = v.
Proof.
  intros n m nlevel before after p f level v B L P F N. rewrite C165_data by (assumption || lia).
  assert (K : forall (hits : list (nat * nat * nat * R)) l (x : R), (forall (l : nat) (w : R), ~ In (p, f, l, w) hits) ->
    fold_left (fun x h => let '(k, c, l0, w) := h in if ((k =? p) && (c =? f) && (l0 =? l))%bool then w else x) hits x = x).
  { induction hits as [|[[[k c] l0] w] hits IH]; intros l x H; cbn [fold_left]; [reflexivity|]. rewrite IH by (intros l1 w1 I; apply (H l1 w1); now right).
    destruct (Nat.eqb_spec k p) as [-> |]; [|reflexivity]. destruct (Nat.eqb_spec c f) as [-> |]; [|reflexivity]. exfalso. apply (H l0 w). now left. }
  assert (R : forall l, recorded (before ++ (p, f, level, v) :: after) p f l = if level =? l then v else 0%R).
  { intros l. unfold recorded. rewrite fold_left_app. cbn [fold_left]. rewrite !Nat.eqb_refl. cbn [andb].
    rewrite (K before) by (intros l1 w1 I; apply (N l1 w1); apply in_or_app; now left). apply K. intros l1 w1 I. apply (N l1 w1). apply in_or_app. now right. }
  assert (L' : level <= nlevel - 1) by lia. clear L. induction (nlevel - 1) as [|s IH]; cbn [finest].
  - replace level with 0 in * by lia. rewrite R. reflexivity.
  - rewrite R. destruct (Nat.eqb_spec level (S s)) as [E|E].
    + destruct (Req_EM_T v 0) as [-> |]; [|reflexivity]. clear IH L'. subst level.
      assert (Z : forall t, t <= s -> finest (before ++ (p, f, S s, 0%R) :: after) p f t = 0%R).
      { induction t as [|t IH]; intros T; cbn [finest]; rewrite R; destruct (Nat.eqb_spec (S s) 0); try lia; [reflexivity|].
        destruct (Nat.eqb_spec (S s) (S t)); [lia|]. destruct (Req_EM_T 0 0); [apply IH; lia|congruence]. }
      now apply Z.
    + destruct (Req_EM_T 0 0); [apply IH; lia|congruence].
Qed.
Print Assumptions C165_single.

(** The coordinates in the file are those of the options: axis and probe are not mixed up, for any number of probes. *)
Theorem C165_coordinates : forall rank xs d p x, d < rank -> nth_error xs p = Some x -> h5_entry (ProbeCoordinates rank xs) (length xs) d p = x d.
Proof.
  intros rank xs d p x D X. assert (P : p < length xs) by (apply nth_error_Some; congruence). unfold h5_entry, ProbeCoordinates.
  change (d * length xs + p) with (right2 (length xs) d p). rewrite coordinates by (assumption || lia). cbn [Nat.leb]. now rewrite Nat.sub_0_r, X.
Qed.
Print Assumptions C165_coordinates.

(** Three probes, two components, two levels: the second probe is on the finer level, where its second component is zero, so the coarse value is used *)
Example C165_example :
  let hits := [(0, 0, 0, 1%R); (0, 1, 0, 2%R); (1, 0, 0, 3%R); (1, 1, 0, 4%R); (1, 0, 1, 5%R); (1, 1, 1, 0%R)] in
  let out := fun f p => h5_entry (GatherStates 3 2 2 hits) 3 f p in
  out 0 0 = 1%R /\ out 1 0 = 2%R /\ out 0 1 = 5%R /\ out 1 1 = 4%R /\ out 0 2 = 0%R.
Proof.
  intros hits out. assert (B : forall k c l v, In (k, c, l, v) hits -> k < 3 /\ c < 2).
  { intros k c l v H. unfold hits in H. cbn [In] in H. repeat (destruct H as [H|H]; [injection H as <- <- _ _; lia|]). contradiction. }
  unfold out. rewrite !C165_data by (assumption || lia). unfold hits. cbn [Nat.sub finest]. unfold recorded. cbn [fold_left Nat.eqb andb].
  repeat split; repeat (destruct (Req_EM_T _ _); try lra); reflexivity || lra.
Qed.

Example C165_coordinates_example :
  let xs := [(fun d => INR d); (fun d => INR (10 + d)); (fun d => INR (20 + d))] in
  h5_entry (ProbeCoordinates 3 xs) 3 2 1 = INR 12 /\ h5_entry (ProbeCoordinates 3 xs) 3 0 2 = INR 20.
Proof. split; reflexivity. Qed.

Example C165_single_example : h5_entry (GatherStates 2 2 3 ([(0, 1, 0, 7%R)] ++ (1, 0, 2, 9%R) :: [(0, 1, 2, 8%R)])) 2 0 1 = 9%R.
Proof.
  apply C165_single with (level := 2); try lia.
  - intros k c l w H. cbn [app In] in H. repeat (destruct H as [H|H]; [injection H as <- <- _ _; lia|]). contradiction.
  - intros l w H. cbn [app In] in H. repeat (destruct H as [H|H]; [congruence|]). contradiction.
Qed.
