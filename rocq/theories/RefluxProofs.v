(** Sums over sets of cells and the geometry of refinement. *)
From Coq Require Import List ZArith Reals Lia Lra Bool Permutation.
From Verif Require Import ArrayModel ArraySpec ArrayProofs BoxProofs UpdateProofs3 UpdateProofs4 RefluxModel RefluxSpec.
Import ListNotations.
Local Open Scope Z_scope.

Lemma mem_spec c l : mem c l = true <-> In c l.
Proof. unfold mem. destruct (in_dec (list_eq_dec Z.eq_dec) c l); split; auto; discriminate. Qed.

Lemma mem_false c l : mem c l = false <-> ~ In c l.
Proof. unfold mem. destruct (in_dec (list_eq_dec Z.eq_dec) c l); split; auto; intros; try discriminate; contradiction. Qed.

(** ** Sums *)

Lemma sum_app a b : sum (a ++ b) = (sum a + sum b)%R.
Proof. unfold sum. induction a as [|x a IH]; cbn [app fold_right]; [lra|]. rewrite IH. lra. Qed.

Lemma sum_perm a b : Permutation a b -> sum a = sum b.
Proof. unfold sum. induction 1; cbn [fold_right]; lra. Qed.

Lemma sum_map_perm {A} (g : A -> R) a b : Permutation a b -> sum (map g a) = sum (map g b).
Proof. intros P. apply sum_perm, Permutation_map, P. Qed.

Lemma sum_cons {A} (g : A -> R) x l : sum (map g (x :: l)) = (g x + sum (map g l))%R.
Proof. reflexivity. Qed.

Lemma sum_split {A} (p : A -> bool) (g : A -> R) l :
  sum (map g l) = (sum (map g (filter p l)) + sum (map g (filter (fun x => negb (p x)) l)))%R.
Proof.
  induction l as [|x l IH]; [cbn; lra|]. rewrite sum_cons. cbn [filter]. destruct (p x); cbn [negb]; rewrite sum_cons; lra.
Qed.

Lemma sum_plus {A} (f g : A -> R) l : sum (map (fun x => f x + g x)%R l) = (sum (map f l) + sum (map g l))%R.
Proof. induction l as [|x l IH]; [cbn; lra|]. rewrite !sum_cons, IH. lra. Qed.

Lemma sum_minus {A} (f g : A -> R) l : sum (map (fun x => f x - g x)%R l) = (sum (map f l) - sum (map g l))%R.
Proof. induction l as [|x l IH]; [cbn; lra|]. rewrite !sum_cons, IH. lra. Qed.

Lemma sum_scal {A} (f : A -> R) k l : sum (map (fun x => k * f x)%R l) = (k * sum (map f l))%R.
Proof. induction l as [|x l IH]; [cbn; lra|]. rewrite !sum_cons, IH. lra. Qed.

Lemma sum_zero {A} (f : A -> R) l : (forall x, In x l -> f x = 0%R) -> sum (map f l) = 0%R.
Proof.
  induction l as [|x l IH]; intros H; [reflexivity|]. rewrite sum_cons, IH, H; [lra|left; reflexivity|intros; apply H; right; assumption].
Qed.

Lemma sum_ext {A} (f g : A -> R) l : (forall x, In x l -> f x = g x) -> sum (map f l) = sum (map g l).
Proof. intros H. f_equal. apply map_ext_in. exact H. Qed.

Lemma sum_flat_map {A B} (g : B -> R) (f : A -> list B) l :
  sum (map g (flat_map f l)) = sum (map (fun c => sum (map g (f c))) l).
Proof.
  induction l as [|x l IH]; [reflexivity|]. cbn [flat_map]. rewrite map_app, sum_app, sum_cons, IH. reflexivity.
Qed.

Lemma sum_swap {A B} (g : A -> B -> R) la lb :
  sum (map (fun a => sum (map (fun b => g a b) lb)) la) = sum (map (fun b => sum (map (fun a => g a b) la)) lb).
Proof.
  induction la as [|x la IH].
  - cbn [map]. symmetry. rewrite sum_zero; [reflexivity|]. intros; reflexivity.
  - rewrite sum_cons, IH, <- sum_plus. apply sum_ext. intros b _. rewrite sum_cons. reflexivity.
Qed.

Lemma filter_flat_map {A B} (p : B -> bool) (f : A -> list B) l :
  filter p (flat_map f l) = flat_map (fun c => filter p (f c)) l.
Proof. induction l as [|x l IH]; [reflexivity|]. cbn [flat_map]. rewrite filter_app, IH. reflexivity. Qed.

Lemma filter_filter {A} (p q : A -> bool) l : filter p (filter q l) = filter (fun x => q x && p x)%bool l.
Proof.
  induction l as [|x l IH]; [reflexivity|]. cbn [filter]. destruct (q x); cbn [filter andb]; [|assumption].
  destruct (p x); rewrite IH; reflexivity.
Qed.

Lemma sum_filter_if {A} (p : A -> bool) (g : A -> R) l :
  sum (map g (filter p l)) = sum (map (fun x => if p x then g x else 0%R) l).
Proof. induction l as [|x l IH]; [reflexivity|]. cbn [filter]. rewrite sum_cons. destruct (p x); rewrite ?sum_cons, IH; lra. Qed.

(** ** Neighbours *)

Section Rank.
Context (n : nat).

Definition has_rank (l : list index) : Prop := forall c, In c l -> length c = n.

Lemma left_length c d : length (left_of c d) = length c.
Proof. apply set_nth_length. Qed.
Lemma right_length c d : length (right_of c d) = length c.
Proof. apply set_nth_length. Qed.

Lemma left_right c d : (d < length c)%nat -> left_of (right_of c d) d = c.
Proof. intros H. unfold left_of, right_of. rewrite Shift_Shift by assumption. apply Shift_0. Qed.
Lemma right_left c d : (d < length c)%nat -> right_of (left_of c d) d = c.
Proof. intros H. unfold left_of, right_of. rewrite Shift_Shift by assumption. apply Shift_0. Qed.

(** the cells of A whose left neighbour is in B are the right neighbours of the cells of B whose right
    neighbour is in A *)
Lemma swap_sides A B d (F : index -> R) :
  NoDup A -> NoDup B -> has_rank A -> has_rank B -> (d < n)%nat ->
  sum (map F (filter (fun c => mem (left_of c d) B) A)) =
  sum (map (fun c => F (right_of c d)) (filter (fun c => mem (right_of c d) A) B)).
Proof.
  intros HA HB RA RB Hd.
  rewrite <- (map_map (fun c => right_of c d) F). apply sum_map_perm. apply NoDup_Permutation.
  - apply NoDup_filter; assumption.
  - apply NoDup_map_in; [|apply NoDup_filter; assumption]. intros x y Hx Hy E.
    apply filter_In in Hx as [Hx _]. apply filter_In in Hy as [Hy _].
    rewrite <- (left_right x d), <- (left_right y d), E; [reflexivity|rewrite (RB y Hy); assumption|rewrite (RB x Hx); assumption].
  - intros c. rewrite filter_In, in_map_iff. rewrite mem_spec. split.
    + intros [Hc Hl]. exists (left_of c d). split; [apply right_left; rewrite (RA c Hc); assumption|].
      apply filter_In. split; [assumption|]. rewrite mem_spec, right_left; [assumption|rewrite (RA c Hc); assumption].
    + intros (x & <- & Hx). apply filter_In in Hx as [Hx Hm]. apply mem_spec in Hm. split; [assumption|].
      rewrite left_right; [assumption|rewrite (RB x Hx); assumption].
Qed.

Lemma telescope_set L d (F : index -> R) :
  NoDup L -> has_rank L -> (d < n)%nat ->
  sum (map (fun c => F c - F (right_of c d))%R L) =
  (sum (map F (without_left L L d)) - sum (map (fun c => F (right_of c d)) (without_right L L d)))%R.
Proof.
  intros HL RL Hd. rewrite sum_minus.
  rewrite (sum_split (fun c => mem (left_of c d) L) F L).
  rewrite (sum_split (fun c => mem (right_of c d) L) (fun c => F (right_of c d)) L).
  rewrite (swap_sides L L d F) by assumption. unfold without_left, without_right. lra.
Qed.

(** ** Children *)

Lemma children_in r c x : length r = n -> length c = n ->
  In x (children r c) <-> length x = n /\ forall k, (k < n)%nat -> nth k r 0 * nth k c 0 <= nth k x 0 < nth k r 0 * (nth k c 0 + 1).
Proof.
  intros Hr Hc. unfold children. rewrite loop_indices_in by (rewrite !map2_length; congruence).
  unfold inside. rewrite !map2_length by congruence. split.
  - intros (H1 & H2 & H3). split; [congruence|]. intros k Hk. specialize (H3 k ltac:(lia)). rewrite !nth_map2 in H3 by lia. exact H3.
  - intros (H1 & H2). split; [congruence|]. split; [congruence|]. intros k Hk. specialize (H2 k ltac:(lia)). rewrite !nth_map2 by lia. exact H2.
Qed.

Lemma nth_left c d k : (d < length c)%nat -> nth k (left_of c d) 0 = if Nat.eqb k d then nth d c 0 - 1 else nth k c 0.
Proof.
  intros H. unfold left_of, Shift, nthZ. rewrite nth_set_nth. destruct (Nat.eqb_spec k d) as [->|]; cbn [andb]; [|reflexivity].
  destruct (Nat.ltb_spec d (length c)); lia.
Qed.
Lemma nth_right c d k : (d < length c)%nat -> nth k (right_of c d) 0 = if Nat.eqb k d then nth d c 0 + 1 else nth k c 0.
Proof.
  intros H. unfold right_of, Shift, nthZ. rewrite nth_set_nth. destruct (Nat.eqb_spec k d) as [->|]; cbn [andb]; [|reflexivity].
  destruct (Nat.ltb_spec d (length c)); lia.
Qed.

Context (r : list Z) (Hr : length r = n) (Hpos : Forall (fun x => 0 < x) r).

Lemma ratio_pos k : (k < n)%nat -> 0 < nth k r 0.
Proof. intros H. rewrite Forall_forall in Hpos. apply Hpos, nth_In. lia. Qed.

Lemma parent_unique c c' x : length c = n -> length c' = n -> In x (children r c) -> In x (children r c') -> c = c'.
Proof.
  intros Hc Hc' Hx Hx'. apply (children_in r c x Hr Hc) in Hx as [_ Hx]. apply (children_in r c' x Hr Hc') in Hx' as [_ Hx'].
  apply (nth_ext _ _ 0 0); [congruence|]. intros k Hk. specialize (Hx k ltac:(lia)). specialize (Hx' k ltac:(lia)).
  pose proof (ratio_pos k ltac:(lia)). nia.
Qed.

Lemma child_left c x d : length c = n -> (d < n)%nat -> In x (children r c) ->
  In (left_of x d) (children r (if nth d x 0 =? nth d r 0 * nth d c 0 then left_of c d else c)).
Proof.
  intros Hc Hd Hx. apply (children_in r c x Hr Hc) in Hx as [Lx Hx]. pose proof (ratio_pos d Hd) as Hp.
  pose proof (Hx d Hd) as Hxd.
  destruct (Z.eqb_spec (nth d x 0) (nth d r 0 * nth d c 0)) as [E|E].
  - apply children_in; [assumption|rewrite left_length; assumption|]. split; [rewrite left_length; assumption|].
    intros k Hk. rewrite !nth_left by lia. destruct (Nat.eqb_spec k d) as [->|]; [nia|apply Hx; assumption].
  - apply children_in; [assumption|assumption|]. split; [rewrite left_length; assumption|].
    intros k Hk. rewrite !nth_left by lia. destruct (Nat.eqb_spec k d) as [->|]; [nia|apply Hx; assumption].
Qed.

Lemma child_right c x d : length c = n -> (d < n)%nat -> In x (children r c) ->
  In (right_of x d) (children r (if nth d x 0 =? nth d r 0 * (nth d c 0 + 1) - 1 then right_of c d else c)).
Proof.
  intros Hc Hd Hx. apply (children_in r c x Hr Hc) in Hx as [Lx Hx]. pose proof (ratio_pos d Hd) as Hp.
  pose proof (Hx d Hd) as Hxd.
  destruct (Z.eqb_spec (nth d x 0) (nth d r 0 * (nth d c 0 + 1) - 1)) as [E|E].
  - apply children_in; [assumption|rewrite right_length; assumption|]. split; [rewrite right_length; assumption|].
    intros k Hk. rewrite !nth_right by lia. destruct (Nat.eqb_spec k d) as [->|]; [nia|apply Hx; assumption].
  - apply children_in; [assumption|assumption|]. split; [rewrite right_length; assumption|].
    intros k Hk. rewrite !nth_right by lia. destruct (Nat.eqb_spec k d) as [->|]; [nia|apply Hx; assumption].
Qed.

(** the children on one side of a coarse cell *)
Definition edge (d : nat) (low : bool) (c : index) : list index :=
  filter (fun x => Z.eqb (nth d x 0) (if low then nth d r 0 * nth d c 0 else nth d r 0 * (nth d c 0 + 1) - 1)) (children r c).

Lemma refine_in C x : In x (flat_map (children r) C) <-> exists c, In c C /\ In x (children r c).
Proof. apply in_flat_map. Qed.

Lemma refined_low C d (g : index -> R) :
  has_rank C -> (d < n)%nat ->
  sum (map g (without_left (flat_map (children r) C) (flat_map (children r) C) d)) =
  sum (map (fun c => sum (map g (edge d true c))) (without_left C C d)).
Proof.
  intros RC Hd. unfold without_left at 1. rewrite filter_flat_map, sum_flat_map.
  unfold without_left. rewrite sum_filter_if. apply sum_ext. intros c Hc.
  destruct (mem (left_of c d) C) eqn:E; cbn [negb].
  - apply mem_spec in E. rewrite (filter_ext_in _ (fun _ => false)).
    + clear. induction (children r c) as [|x l IH]; [reflexivity|exact IH].
    + intros x Hx. apply negb_false_iff, mem_spec, refine_in.
      pose proof (child_left c x d (RC c Hc) Hd Hx) as Hl.
      destruct (nth d x 0 =? nth d r 0 * nth d c 0); [exists (left_of c d)|exists c]; auto.
  - apply mem_false in E. f_equal. f_equal. unfold edge. apply filter_ext_in. intros x Hx.
    pose proof (child_left c x d (RC c Hc) Hd Hx) as Hl.
    destruct (nth d x 0 =? nth d r 0 * nth d c 0).
    + apply negb_true_iff, mem_false. rewrite refine_in. intros (c' & Hc' & Hx').
      apply E. rewrite (parent_unique (left_of c d) c' (left_of x d)); auto. rewrite left_length; auto.
    + apply negb_false_iff, mem_spec, refine_in. exists c; auto.
Qed.

Lemma refined_high C d (g : index -> R) :
  has_rank C -> (d < n)%nat ->
  sum (map g (without_right (flat_map (children r) C) (flat_map (children r) C) d)) =
  sum (map (fun c => sum (map g (edge d false c))) (without_right C C d)).
Proof.
  intros RC Hd. unfold without_right at 1. rewrite filter_flat_map, sum_flat_map.
  unfold without_right. rewrite sum_filter_if. apply sum_ext. intros c Hc.
  destruct (mem (right_of c d) C) eqn:E; cbn [negb].
  - apply mem_spec in E. rewrite (filter_ext_in _ (fun _ => false)).
    + clear. induction (children r c) as [|x l IH]; [reflexivity|exact IH].
    + intros x Hx. apply negb_false_iff, mem_spec, refine_in.
      pose proof (child_right c x d (RC c Hc) Hd Hx) as Hl.
      destruct (nth d x 0 =? nth d r 0 * (nth d c 0 + 1) - 1); [exists (right_of c d)|exists c]; auto.
  - apply mem_false in E. f_equal. f_equal. unfold edge. apply filter_ext_in. intros x Hx.
    pose proof (child_right c x d (RC c Hc) Hd Hx) as Hl.
    destruct (nth d x 0 =? nth d r 0 * (nth d c 0 + 1) - 1).
    + apply negb_true_iff, mem_false. rewrite refine_in. intros (c' & Hc' & Hx').
      apply E. rewrite (parent_unique (right_of c d) c' (right_of x d)); auto. rewrite right_length; auto.
    + apply negb_false_iff, mem_spec, refine_in. exists c; auto.
Qed.

End Rank.
