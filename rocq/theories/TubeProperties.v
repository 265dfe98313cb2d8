(** C149: a tube around a line through points, and the file with the points. *)
From Coq Require Import List Reals Bool Lra Lia.
From Verif Require Import TubeModel TubeSpec TubeProofs TubeProofs2.
Import ListNotations.
Local Open Scope R_scope.

(** The value is not negative exactly for points between the cuts of some segment and at most radius away from its axis. *)
Theorem C149_inside : forall (points : list vec) (radius : R) (x : vec), (2 <= length points)%nat -> Forall (fun c => vz c = 0) points ->
  exists v, ExpandTube points radius x = Some v /\ (0 <= v <-> exists i, in_segment points radius i x).
Proof. exact tube_inside. Qed.
Print Assumptions C149_inside.

(** Full claim: the line through the points is inside. It is for lines that start upwards and end downwards. *)
Theorem C149_axis_partial : forall (points : list vec) (radius : R) (i : nat) (a b : vec) (s : R),
  0 <= radius -> Forall (fun c => vz c = 0) points -> direction points 0 up -> direction points (length points - 2) down ->
  nth_error points i = Some a -> nth_error points (S i) = Some b -> 0 <= s <= 1 ->
  exists v, ExpandTube points radius (vadd a (vscale s (vsub b a))) = Some v /\ 0 <= v.
Proof.
  intros points radius i a b s Hr HF D0 Dl Ea Eb Hs.
  assert (L : (2 <= length points)%nat) by (assert (S i < length points)%nat by (apply nth_error_Some; congruence); lia).
  destruct (tube_inside points radius (vadd a (vscale s (vsub b a))) L HF) as (v & E & H). exists v. split; [exact E|]. apply H.
  exists i. now apply axis_inside.
Qed.
Print Assumptions C149_axis_partial.
(** A bend: up, to the right, down. *)
Example C149_example : let pts := [mkVec 0 0 0; mkVec 0 2 0; mkVec 3 2 0; mkVec 3 0 0] in
  direction pts 0 up /\ direction pts (length pts - 2) down /\ Forall (fun c => vz c = 0) pts /\
  exists v, ExpandTube pts 1 (mkVec 1 2 0) = Some v /\ 0 <= v.
Proof.
  cbv zeta. set (pts := [mkVec 0 0 0; mkVec 0 2 0; mkVec 3 2 0; mkVec 3 0 0]).
  assert (D0 : direction pts 0 up).
  { exists (mkVec 0 0 0), (mkVec 0 2 0). repeat split. right. exists (1 / 2). split; [lra|]. split; [apply vec_eq; cbn; field|]. unfold vdot, up. cbn. ring. }
  assert (Dl : direction pts (length pts - 2) down).
  { exists (mkVec 3 2 0), (mkVec 3 0 0). repeat split. right. exists (1 / 2). split; [lra|]. split; [apply vec_eq; cbn; field|]. unfold vdot, down. cbn. ring. }
  assert (HF : Forall (fun c => vz c = 0) pts) by (repeat constructor).
  split; [exact D0|]. split; [exact Dl|]. split; [exact HF|].
  destruct (C149_axis_partial pts 1 1 (mkVec 0 2 0) (mkVec 3 2 0) (1 / 3) ltac:(lra) HF D0 Dl eq_refl eq_refl ltac:(lra)) as (v & E & H).
  exists v. split; [|exact H]. rewrite <- E. f_equal. apply vec_eq; cbn; field.
Qed.

(** Refuted for a straight tube upwards: its centre line is outside, and everything above its end is inside. *)
Theorem C149_axis_refuted : forall (len radius y : R), 0 < len -> 0 <= radius ->
  exists v, ExpandTube [mkVec 0 0 0; mkVec 0 len 0] radius (mkVec 0 y 0) = Some v /\ (0 <= v <-> len <= y).
Proof.
  intros len radius y Hl Hr. set (pts := [mkVec 0 0 0; mkVec 0 len 0]).
  assert (HF : Forall (fun c => vz c = 0) pts) by (repeat constructor).
  destruct (tube_inside pts radius (mkVec 0 y 0) (le_n 2) HF) as (v & E & H). exists v. split; [exact E|]. rewrite H.
  assert (D : direction pts 0 up).
  { exists (mkVec 0 0 0), (mkVec 0 len 0). repeat split. right. exists (/ len). split; [now apply Rinv_0_lt_compat|].
    split; [apply vec_eq; cbn; field; lra|unfold vdot, up; cbn; ring]. }
  split.
  - intros (i & a & b & h & n & m & Ea & Eb & Dh & Cn & Cm & H1 & H2 & _). destruct i as [|[|i]]; [|discriminate|destruct i; discriminate].
    cbn in Ea, Eb. injection Ea as <-. injection Eb as <-. inversion Cm as [|j Hj|h' n' L3|j g' h' n' L3]; subst; cbn in *; [|lia].
    unfold vdot, down in H2. cbn in H2. lra.
  - intros Hy. exists 0%nat, (mkVec 0 0 0), (mkVec 0 len 0), up, up, down. repeat (split; [reflexivity|]). split; [exact D|].
    split; [constructor|]. split; [now constructor|]. split; [unfold vdot; cbn; lra|]. split; [unfold vdot; cbn; lra|].
    exists y. unfold within. match goal with |- sqrt ?e <= _ => replace e with 0 by (unfold vdot, vsub; cbn; ring) end. now rewrite sqrt_0.
Qed.
Print Assumptions C149_axis_refuted.
(** One point is not enough: undefined behaviour. *)
Theorem C149_points_refuted : forall (p : vec) (radius : R) (x : vec), ExpandTube [p] radius x = None.
Proof. reflexivity. Qed.
Print Assumptions C149_points_refuted.

(** A file in which every line has an end and begins with two numbers gives the points in their order, with z = 0.
    What follows the end of the last line is ignored. *)
Theorem C149_file : forall (C : Type) (newline : C -> bool) (numbers : list C -> list R) (nl : C) (lines : list (list C)) (rest : list C) (points : list vec),
  newline nl = true -> Forall (Forall (fun c => newline c = false)) lines -> Forall (fun c => newline c = false) rest ->
  Forall2 (fun l p => exists x y more, numbers l = x :: y :: more /\ p = mkVec x y 0) lines points ->
  ReadPointsFromFile newline numbers (flat_map (fun l => l ++ [nl]) lines ++ rest) = Columns points.
Proof.
  intros C newline numbers nl lines rest points Hnl HF Hr H2. unfold ReadPointsFromFile.
  change (flat_map (fun l => l ++ [nl]) lines ++ rest) with (text nl lines rest).
  rewrite (count_text newline nl Hnl lines rest HF Hr), (read_lines newline numbers nl Hnl) by (assumption || (cbn; lia)).
  assert (E : flat_map (point_of numbers) lines = points).
  { clear - H2. induction H2 as [|l p ls ps (x & y & m & E & ->) _ IH]; cbn; [reflexivity|]. rewrite IH. unfold point_of. now rewrite E. }
  cbv zeta. cbn [app]. rewrite E. assert (L : length lines = length points) by (clear - H2; induction H2; cbn; congruence). rewrite L, Nat.ltb_irrefl, Nat.eqb_refl. reflexivity.
Qed.
Print Assumptions C149_file.
(** Characters are numbers here, 0 ends a line and each character is a value. *)
Example C149_example_file : let f := ReadPointsFromFile (Nat.eqb 0) (map INR) in
  f ([1; 2; 0; 3; 4; 5; 0])%nat = Columns [mkVec (INR 1) (INR 2) 0; mkVec (INR 3) (INR 4) 0] /\ f ([1; 2; 0; 3; 4])%nat = Columns [mkVec (INR 1) (INR 2) 0].
Proof. split; reflexivity. Qed.
(** Refuted: the values of a whole file are lost if a line, for example an empty one, does not begin with two numbers. *)
Theorem C149_file_refuted : forall (C : Type) (newline : C -> bool) (numbers : list C -> list R) (nl : C) (lines : list (list C)),
  newline nl = true -> Forall (Forall (fun c => newline c = false)) lines ->
  (exists l, In l lines /\ forall x y more, numbers l <> x :: y :: more) ->
  exists n, ReadPointsFromFile newline numbers (flat_map (fun l => l ++ [nl]) lines) = Lost n /\ (n < length lines)%nat.
Proof.
  intros C newline numbers nl lines Hnl HF (l & Hl & Hn). unfold ReadPointsFromFile.
  rewrite <- (app_nil_r (flat_map (fun l => l ++ [nl]) lines)). change (flat_map (fun l => l ++ [nl]) lines ++ []) with (text nl lines []).
  rewrite (count_text newline nl Hnl lines [] HF ltac:(constructor)), (read_lines newline numbers nl Hnl) by (assumption || constructor || (cbn; lia)).
  cbv zeta. cbn [app].
  assert (K : (length (flat_map (point_of numbers) lines) < length lines)%nat).
  { clear HF. induction lines as [|a r IH]; [destruct Hl|]. cbn [flat_map length]. rewrite app_length. pose proof (points_length numbers r).
    pose proof (point_length numbers a). destruct Hl as [<-|Hl]; [|specialize (IH Hl); lia].
    assert (E : length (point_of numbers a) = 0%nat); [|lia]. unfold point_of. destruct (numbers a) as [|x [|y q]]; try reflexivity. exfalso. exact (Hn x y q eq_refl). }
  replace (length (flat_map (point_of numbers) lines) <? length lines)%nat with true by (symmetry; apply Nat.ltb_lt; exact K).
  replace (length (flat_map (point_of numbers) lines) =? length lines)%nat with false by (symmetry; apply Nat.eqb_neq; lia).
  eauto.
Qed.
Print Assumptions C149_file_refuted.
