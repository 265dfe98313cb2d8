(** Proofs about index boxes and the loops over them. *)
From Coq Require Import List ZArith Lia Bool Sorting.Sorted.
From Verif Require Import ArrayModel ArraySpec ArrayProofs.
Import ListNotations.
Local Open Scope Z_scope.

(** ** Membership *)

Lemma inside_nil i : inside [] [] i <-> i = [].
Proof.
  split; [intros (H & _); destruct i; [reflexivity|discriminate]|].
  intros ->. split; [reflexivity|]. split; [reflexivity|]. simpl; intros; lia.
Qed.

Lemma inside_cons l lo u up i :
  inside (l :: lo) (u :: up) i <-> exists k i', i = k :: i' /\ l <= k < u /\ inside lo up i'.
Proof.
  split.
  - intros (H1 & H2 & H). destruct i as [|k i']; [discriminate|].
    exists k, i'. split; [reflexivity|]. split; [apply (H O); simpl; lia|].
    split; [simpl in H1; lia|]. split; [simpl in H2; lia|]. intros r Hr. apply (H (S r)). simpl; lia.
  - intros (k & i' & -> & Hk & H1 & H2 & H). split; [simpl; lia|]. split; [simpl; lia|].
    intros [|r] Hr; simpl; [assumption|]. apply H. simpl in Hr; lia.
Qed.

Lemma inside_lengths lo up i : inside lo up i -> length lo = length i /\ length up = length i.
Proof. intros (H1 & H2 & _). lia. Qed.

Lemma all_leb_spec a b :
  length a = length b ->
  all_leb a b = true <-> (forall r, (r < length a)%nat -> nth r a 0 <= nth r b 0).
Proof.
  revert b; induction a as [|x a IH]; intros [|y b] H; simpl in *; try lia.
  - split; [intros; lia|reflexivity].
  - unfold all_leb in *. cbn [combine forallb fst snd]. rewrite andb_true_iff, Z.leb_le, IH by lia. split.
    + intros [H1 H2] [|r] Hr; [assumption|]. apply H2. lia.
    + intros H1. split; [apply (H1 O); lia|]. intros r Hr. apply (H1 (S r)). lia.
Qed.

Lemma nth_map_succ (f : Z -> Z) i r : (r < length i)%nat -> nth r (map f i) 0 = f (nth r i 0).
Proof.
  revert r; induction i as [|x i IH]; intros r Hr; simpl in *; [lia|]. destruct r; [reflexivity|]. apply IH; lia.
Qed.

Lemma contains_index_spec n b i :
  box_of_rank n b -> length i = n -> ContainsIndex b i = true <-> in_box b i.
Proof.
  intros [H1 H2] Hi. unfold ContainsIndex, ContainsBox. cbn [lower upper].
  rewrite andb_true_iff, !all_leb_spec by (rewrite ?map_length; congruence).
  rewrite map_length. unfold in_box, inside. split.
  - intros [A B]. repeat split; try congruence.
    + apply A. lia.
    + specialize (B r ltac:(lia)). rewrite nth_map_succ in B by lia. lia.
  - intros (_ & _ & A). split; intros r Hr.
    + apply A; lia.
    + rewrite nth_map_succ by lia. specialize (A r ltac:(lia)). lia.
Qed.

(** A corner of a non-empty box with one coordinate replaced. *)
Lemma replace_coordinate lo up i r k :
  inside lo up i -> (r < length i)%nat -> nth r lo 0 <= k < nth r up 0 ->
  inside lo up (set_nth i r k) /\ nth r (set_nth i r k) 0 = k.
Proof.
  revert up i r; induction lo as [|l lo IH]; intros [|u up] i r Hi Hr Hk;
    try (destruct Hi as (E1 & E2 & _); simpl in *; lia).
  apply inside_cons in Hi as (x & i' & -> & Hx & Hi'). destruct r as [|r]; cbn [set_nth nth] in *.
  - split; [|reflexivity]. apply inside_cons. exists k, i'. auto.
  - simpl in Hr. destruct (IH up i' r Hi' ltac:(lia) Hk) as [A B].
    split; [|assumption]. apply inside_cons. exists x, (set_nth i' r k). auto.
Qed.

Lemma contains_box_spec n b1 b2 :
  box_of_rank n b1 -> box_of_rank n b2 -> nonempty b2 ->
  ContainsBox b1 b2 = true <-> (forall i, in_box b2 i -> in_box b1 i).
Proof.
  intros [A1 A2] [B1 B2] (i0 & Hi0). unfold ContainsBox.
  rewrite andb_true_iff, !all_leb_spec by congruence. split.
  - intros [H1 H2] i (C1 & C2 & C). unfold in_box, inside. split; [congruence|]. split; [congruence|].
    intros r Hr. specialize (C r Hr). specialize (H1 r ltac:(lia)). specialize (H2 r ltac:(lia)). lia.
  - intros H. pose proof Hi0 as (C1 & C2 & C). split; intros r Hr.
    + specialize (C r ltac:(lia)).
      destruct (replace_coordinate _ _ i0 r (nth r (lower b2) 0) Hi0 ltac:(lia) ltac:(lia)) as [D E].
      apply H in D. destruct D as (D1 & D2 & D). rewrite set_nth_length in D.
      specialize (D r ltac:(lia)). rewrite E in D. lia.
    + specialize (C r ltac:(lia)).
      destruct (replace_coordinate _ _ i0 r (nth r (upper b2) 0 - 1) Hi0 ltac:(lia) ltac:(lia)) as [D E].
      apply H in D. destruct D as (D1 & D2 & D). rewrite set_nth_length in D.
      specialize (D r ltac:(lia)). rewrite E in D. lia.
Qed.

Lemma intersect_spec n b1 b2 i :
  box_of_rank n b1 -> box_of_rank n b2 ->
  in_box (Intersect b1 b2) i <-> in_box b1 i /\ in_box b2 i.
Proof.
  intros [A1 A2] [B1 B2]. unfold in_box, inside, Intersect. cbn [lower upper].
  rewrite !map2_length; rewrite ?map2_length; try congruence.
  split.
  - intros (C1 & C2 & C).
    assert (forall r, (r < length i)%nat ->
      (nth r (lower b1) 0 <= nth r i 0 < nth r (upper b1) 0) /\
      (nth r (lower b2) 0 <= nth r i 0 < nth r (upper b2) 0)) as D.
    { intros r Hr. specialize (C r Hr).
      rewrite !nth_map2 in C; rewrite ?map2_length; try lia. }
    repeat split; try congruence; apply D; lia.
  - intros ((C1 & C2 & C) & (D1 & D2 & D)). repeat split; try congruence.
    + rewrite nth_map2 by lia. specialize (C r ltac:(assumption)). specialize (D r ltac:(assumption)). lia.
    + specialize (C r ltac:(assumption)). specialize (D r ltac:(assumption)).
      rewrite !nth_map2; rewrite ?map2_length; lia.
Qed.

Lemma intersect_wellformed n b1 b2 r :
  box_of_rank n b1 -> box_of_rank n b2 -> (r < n)%nat ->
  nth r (lower (Intersect b1 b2)) 0 <= nth r (upper (Intersect b1 b2)) 0.
Proof.
  intros [A1 A2] [B1 B2] Hr. unfold Intersect. cbn [lower upper].
  rewrite !nth_map2; rewrite ?map2_length; lia.
Qed.

Lemma nth_set_nth l k v r :
  nth r (set_nth l k v) 0 = if (Nat.eqb r k && Nat.ltb k (length l))%bool then v else nth r l 0.
Proof.
  revert k r; induction l as [|x l IH]; intros k r.
  - simpl. destruct (Nat.eqb r k); simpl; destruct r; reflexivity.
  - destruct k as [|k]; destruct r as [|r]; cbn [set_nth nth]; try reflexivity.
    rewrite IH. simpl length. destruct (Nat.eqb_spec r k); destruct (Nat.eqb_spec (S r) (S k)); try lia;
    destruct (Nat.ltb_spec k (length l)); destruct (Nat.ltb_spec (S k) (S (length l))); try lia; reflexivity.
Qed.

Lemma shift_shifted i r d : (r < length i)%nat -> shifted i (Shift i r d) r d.
Proof.
  intros Hr. unfold Shift, nthZ. split; [apply set_nth_length|]. split.
  - rewrite nth_set_nth, Nat.eqb_refl. destruct (Nat.ltb_spec r (length i)); [reflexivity|lia].
  - intros k Hk. rewrite nth_set_nth. destruct (Nat.eqb_spec k r); [contradiction|reflexivity].
Qed.

Lemma set_nth_twice l k v w : set_nth (set_nth l k v) k w = set_nth l k w.
Proof. revert k; induction l; intros [|k]; simpl; try reflexivity. rewrite IHl. reflexivity. Qed.

Lemma set_nth_same l k : set_nth l k (nth k l 0) = l.
Proof. revert k; induction l; intros [|k]; simpl; try reflexivity. rewrite IHl. reflexivity. Qed.

Lemma nth_set_same l k v : (k < length l)%nat -> nth k (set_nth l k v) 0 = v.
Proof. intros. rewrite nth_set_nth, Nat.eqb_refl. destruct (Nat.ltb_spec k (length l)); [reflexivity|lia]. Qed.

Lemma grow_shrink n b dir s :
  box_of_rank n b -> (dir < n)%nat -> Shrink (Grow b dir s) dir s = b /\ Grow (Shrink b dir s) dir s = b.
Proof.
  intros [A1 A2] Hd. unfold Shrink, Grow, nthZ. cbn [lower upper].
  rewrite !nth_set_same by lia. rewrite !set_nth_twice.
  replace (nth dir (lower b) 0 - fst s + fst s) with (nth dir (lower b) 0) by lia.
  replace (nth dir (upper b) 0 + snd s - snd s) with (nth dir (upper b) 0) by lia.
  replace (nth dir (lower b) 0 + fst s - fst s) with (nth dir (lower b) 0) by lia.
  replace (nth dir (upper b) 0 - snd s + snd s) with (nth dir (upper b) 0) by lia.
  rewrite !set_nth_same. destruct b; auto.
Qed.

Lemma grow_spec n b dir s i :
  box_of_rank n b -> (dir < n)%nat ->
  in_box (Grow b dir s) i <->
  length i = n /\
  nth dir (lower b) 0 - fst s <= nth dir i 0 < nth dir (upper b) 0 + snd s /\
  forall r, (r < n)%nat -> r <> dir -> nth r (lower b) 0 <= nth r i 0 < nth r (upper b) 0.
Proof.
  intros [A1 A2] Hd. unfold in_box, inside, Grow, nthZ. cbn [lower upper]. rewrite !set_nth_length. split.
  - intros (C1 & C2 & C). split; [congruence|]. split.
    + specialize (C dir ltac:(lia)). rewrite !nth_set_same in C by lia. exact C.
    + intros r Hr Hne. specialize (C r ltac:(lia)). rewrite !nth_set_nth in C.
      destruct (Nat.eqb_spec r dir); [contradiction|]. exact C.
  - intros (C1 & C2 & C). split; [congruence|]. split; [congruence|]. intros r Hr.
    destruct (Nat.eq_dec r dir) as [-> | Hne].
    + rewrite !nth_set_same by lia. exact C2.
    + rewrite !nth_set_nth. destruct (Nat.eqb_spec r dir); [contradiction|]. apply C; lia.
Qed.

Lemma shrink_spec n b dir s i :
  box_of_rank n b -> (dir < n)%nat ->
  in_box (Shrink b dir s) i <->
  length i = n /\
  nth dir (lower b) 0 + fst s <= nth dir i 0 < nth dir (upper b) 0 - snd s /\
  forall r, (r < n)%nat -> r <> dir -> nth r (lower b) 0 <= nth r i 0 < nth r (upper b) 0.
Proof.
  intros Hb Hd.
  assert (Shrink b dir s = Grow b dir (- fst s, - snd s)) as ->.
  { unfold Shrink, Grow. cbn [fst snd]. f_equal; f_equal; lia. }
  rewrite (grow_spec n) by assumption. cbn [fst snd].
  split; intros (C1 & C2 & C); (split; [assumption|split; [lia|assumption]]).
Qed.

Lemma inside_app_last lo up l u i k :
  length lo = length i ->
  inside (lo ++ [l]) (up ++ [u]) (i ++ [k]) <-> inside lo up i /\ l <= k < u.
Proof.
  intros Hl. unfold inside. rewrite !app_length. simpl. split.
  - intros (A & B & C). split; [repeat split; try lia|].
    + specialize (C r ltac:(lia)). rewrite !app_nth1 in C by lia. lia.
    + specialize (C r ltac:(lia)). rewrite !app_nth1 in C by lia. lia.
    + specialize (C (length i) ltac:(lia)).
      rewrite !app_nth2 in C by lia.
      replace (length i - length lo)%nat with O in C by lia.
      replace (length i - length up)%nat with O in C by lia.
      replace (length i - length i)%nat with O in C by lia. simpl in C. lia.
  - intros ((A & B & C) & D). split; [lia|]. split; [lia|]. intros r Hr.
    destruct (Nat.eq_dec r (length i)) as [-> | Hne].
    + rewrite !app_nth2 by lia.
      replace (length i - length lo)%nat with O by lia.
      replace (length i - length up)%nat with O by lia.
      replace (length i - length i)%nat with O by lia. simpl. exact D.
    + rewrite !app_nth1 by lia. apply C. lia.
Qed.

Lemma project_embed n b lim : box_of_rank n b -> Project n (Embed b lim) = b.
Proof.
  intros [A1 A2]. unfold Project, Embed. cbn [lower upper].
  rewrite <- A1 at 1. rewrite firstn_app, Nat.sub_diag, firstn_all, firstn_O, app_nil_r.
  rewrite <- A2. rewrite firstn_app, Nat.sub_diag, firstn_all, firstn_O, app_nil_r. destruct b; reflexivity.
Qed.

Lemma neighborhood_spec i w j :
  in_box (Neighborhood i w) j <->
  length j = length i /\ forall r, (r < length i)%nat -> Z.abs (nth r j 0 - nth r i 0) <= w.
Proof.
  unfold in_box, inside, Neighborhood. cbn [lower upper]. rewrite !map_length. split.
  - intros (A & _ & C). split; [assumption|]. intros r Hr. specialize (C r ltac:(lia)).
    rewrite !nth_map_succ in C by lia. lia.
  - intros (A & C). split; [assumption|]. split; [assumption|]. intros r Hr. specialize (C r ltac:(lia)).
    rewrite !nth_map_succ by lia. lia.
Qed.

(** ** Loops *)

Lemma in_zrange lo hi k : In k (zrange lo hi) <-> lo <= k < hi.
Proof.
  unfold zrange. rewrite in_map_iff. split.
  - intros (n & <- & H). apply in_seq in H. lia.
  - intros H. exists (Z.to_nat (k - lo)). split; [lia|]. apply in_seq. lia.
Qed.

Lemma loop_indices_in lo up i :
  length lo = length up -> In i (loop_indices lo up) <-> inside lo up i.
Proof.
  revert up i; induction lo as [|l lo IH]; intros [|u up] i H; try discriminate.
  - simpl. rewrite inside_nil. intuition congruence.
  - cbn [loop_indices]. rewrite in_flat_map, inside_cons. split.
    + intros (o & Ho & Hi). apply in_map_iff in Hi as (k & <- & Hk). apply in_zrange in Hk.
      exists k, o. split; [reflexivity|]. split; [assumption|]. apply IH; [simpl in H; lia|assumption].
    + intros (k & o & -> & Hk & Ho). exists o. split; [apply IH; [simpl in H; lia|assumption]|].
      apply in_map_iff. exists k. split; [reflexivity|]. apply in_zrange. assumption.
Qed.

Lemma StronglySorted_app {A} (R : A -> A -> Prop) l1 l2 :
  StronglySorted R l1 -> StronglySorted R l2 -> (forall x y, In x l1 -> In y l2 -> R x y) ->
  StronglySorted R (l1 ++ l2).
Proof.
  induction 1 as [|x l1 Hs IH Hf]; intros H2 H; simpl; [assumption|]. constructor.
  - apply IH; [assumption|]. intros; apply H; [right; assumption|assumption].
  - apply Forall_app. split; [assumption|]. apply Forall_forall. intros y Hy. apply H; [left; reflexivity|assumption].
Qed.

Lemma map_seq_sorted (f : nat -> list Z) a n :
  (forall i j, (a <= i < j)%nat -> colex_lt (f i) (f j)) -> StronglySorted colex_lt (map f (seq a n)).
Proof.
  revert a; induction n as [|n IH]; intros a H; simpl; constructor.
  - apply IH. intros; apply H; lia.
  - apply Forall_forall. intros y Hy. apply in_map_iff in Hy as (k & <- & Hk). apply in_seq in Hk. apply H. lia.
Qed.

Lemma loop_indices_sorted lo up : StronglySorted colex_lt (loop_indices lo up).
Proof.
  revert up; induction lo as [|l lo IH]; intros [|u up]; cbn [loop_indices]; try (repeat constructor).
  induction (IH up) as [|o os Hs IHs Hf]; cbn [flat_map]; [constructor|].
  apply StronglySorted_app.
  - unfold zrange. rewrite map_map. apply map_seq_sorted. intros i j Hij. simpl. right. split; [reflexivity|lia].
  - apply IHs.
  - intros x y Hx Hy. apply in_map_iff in Hx as (k & <- & _).
    apply in_flat_map in Hy as (o' & Ho' & Hy). apply in_map_iff in Hy as (k' & <- & _).
    simpl. left. rewrite Forall_forall in Hf. apply Hf. assumption.
Qed.

Lemma colex_irrefl i : ~ colex_lt i i.
Proof. induction i as [|x i IH]; simpl; [tauto|]. intros [H|[_ H]]; [tauto|lia]. Qed.

Lemma sorted_nodup l : StronglySorted colex_lt l -> NoDup l.
Proof.
  induction 1 as [|x l Hs IH Hf]; constructor; [|assumption].
  intros Hin. rewrite Forall_forall in Hf. exact (colex_irrefl x (Hf x Hin)).
Qed.

Lemma zrange_snoc a n : 0 <= n -> zrange a (a + n + 1) = zrange a (a + n) ++ [a + n].
Proof.
  intros Hn. unfold zrange. replace (Z.to_nat (a + n + 1 - a)) with (S (Z.to_nat n)) by lia.
  replace (Z.to_nat (a + n - a)) with (Z.to_nat n) by lia.
  rewrite seq_S, map_app. cbn [map]. rewrite Nat.add_0_l, Z2Nat.id by lia. reflexivity.
Qed.

Lemma zrange_block x p : 0 <= x ->
  flat_map (fun m => map (fun k => k + x * m) (zrange 0 x)) (zrange 0 (Z.of_nat p)) = zrange 0 (x * Z.of_nat p).
Proof.
  intros Hx. induction p as [|p IH].
  - rewrite Z.mul_0_r. reflexivity.
  - replace (Z.of_nat (S p)) with (0 + Z.of_nat p + 1) by lia. rewrite zrange_snoc by lia.
    rewrite flat_map_app, Z.add_0_l, IH. cbn [flat_map]. rewrite app_nil_r.
    replace (x * (Z.of_nat p + 1)) with (x * Z.of_nat p + x) by ring.
    assert (forall n : nat, zrange 0 (x * Z.of_nat p) ++ map (fun k => k + x * Z.of_nat p) (zrange 0 (Z.of_nat n)) =
              zrange 0 (x * Z.of_nat p + Z.of_nat n)) as E.
    { induction n as [|n IHn].
      - simpl. rewrite app_nil_r, Z.add_0_r. reflexivity.
      - replace (Z.of_nat (S n)) with (0 + Z.of_nat n + 1) by lia. rewrite zrange_snoc by lia.
        rewrite map_app, app_assoc, Z.add_0_l, IHn. cbn [map].
        replace (x * Z.of_nat p + (Z.of_nat n + 1)) with (0 + (x * Z.of_nat p + Z.of_nat n) + 1) by lia.
        rewrite zrange_snoc by nia. rewrite !Z.add_0_l. f_equal. f_equal. lia. }
    specialize (E (Z.to_nat x)). rewrite Z2Nat.id in E by assumption. exact E.
Qed.

Lemma flat_map_map {A B C} (f : B -> list C) (g : A -> B) l : flat_map f (map g l) = flat_map (fun x => f (g x)) l.
Proof. induction l; simpl; [reflexivity|]. rewrite IHl. reflexivity. Qed.

Lemma map_flat_map {A B C} (f : B -> C) (g : A -> list B) l :
  map f (flat_map g l) = flat_map (fun x => map f (g x)) l.
Proof. induction l; simpl; [reflexivity|]. rewrite map_app, IHl. reflexivity. Qed.

Lemma flat_map_ext_in {A B} (f g : A -> list B) l : (forall x, In x l -> f x = g x) -> flat_map f l = flat_map g l.
Proof.
  induction l; simpl; intros H; [reflexivity|]. rewrite H by (left; reflexivity). f_equal. apply IHl. intros; apply H; right; assumption.
Qed.

Lemma memory_order e :
  extents_ok e ->
  map (map_index (LayoutLeft e)) (loop_indices (repeat 0 (length e)) e) = zrange 0 (product e).
Proof.
  induction 1 as [|x e Hx He IH]; [reflexivity|].
  cbn [length repeat loop_indices]. rewrite map_flat_map.
  rewrite (flat_map_ext_in _ (fun o => (fun m => map (fun k => k + x * m) (zrange 0 x)) (map_index (LayoutLeft e) o))).
  - rewrite <- (flat_map_map (fun m => map (fun k => k + x * m) (zrange 0 x)) (map_index (LayoutLeft e))), IH. cbn [product fold_right]. fold (product e).
    rewrite <- (Z2Nat.id (product e)) by (apply product_nonneg; assumption).
    apply zrange_block. assumption.
  - intros o Ho. rewrite map_map. apply map_ext. intros k. apply left_index_cons.
    apply loop_indices_in in Ho; [|rewrite repeat_length; reflexivity]. apply Ho.
Qed.

(** ** Rows *)

Lemma zrange_S a b : a < b -> zrange a b = a :: zrange (a + 1) b.
Proof.
  intros H. unfold zrange. replace (Z.to_nat (b - a)) with (S (Z.to_nat (b - (a + 1)))) by lia.
  cbn [seq map]. f_equal; [lia|]. rewrite <- seq_shift, map_map. apply map_ext. intros; lia.
Qed.

Lemma zrange_empty a b : b <= a -> zrange a b = [].
Proof. intros H. unfold zrange. replace (Z.to_nat (b - a)) with O by lia. reflexivity. Qed.

Definition ptr_of (v : PatchDataView) : Z := md_ptr (pdv_span v).
Definition stride_of (r : nat) (v : PatchDataView) : Z := map_stride (md_map (pdv_span v)) r.

Lemma advance_all_map (p s : PatchDataView -> Z) views :
  advance_all (map p views) (map s views) = map (fun v => p v + s v) views.
Proof.
  unfold advance_all, map2. induction views as [|v views IH]; [reflexivity|].
  cbn [map combine fst snd]. rewrite IH. reflexivity.
Qed.

Lemma row_loop_spec v0 rest ext req e1 :
  let views := v0 :: rest in
  0 < stride_of 1 v0 ->
  0 <= e1 -> e1 * stride_of 1 v0 <= req < (e1 + 1) * stride_of 1 v0 ->
  forall (k : nat) (j : Z) fuel calls, 0 <= j <= e1 -> Z.of_nat k = e1 - j -> (k < fuel)%nat ->
  row_loop fuel (ptr_of v0 + req) ext (map (stride_of 1) views)
    (map (fun v => ptr_of v + j * stride_of 1 v) views) calls =
  LoopDone (calls ++ map (fun j => map (fun v => (ptr_of v + j * stride_of 1 v, ext)) views) (zrange j e1)).
Proof.
  intros views Hs He Hreq k. induction k as [|k IH]; intros j fuel calls Hj Hk Hf.
  - destruct fuel as [|fuel]; [lia|]. assert (j = e1) as -> by lia. rewrite zrange_empty by lia.
    cbn [row_loop map]. rewrite app_nil_r. unfold views. cbn [map nthZ nth].
    destruct (Z.leb_spec (stride_of 1 v0) (ptr_of v0 + req - (ptr_of v0 + e1 * stride_of 1 v0))) as [H|H].
    + lia.
    + reflexivity.
  - destruct fuel as [|fuel]; [lia|]. rewrite zrange_S by lia. cbn [row_loop].
    assert (nthZ (map (stride_of 1) views) 0 <=?
            ptr_of v0 + req - nthZ (map (fun v => ptr_of v + j * stride_of 1 v) views) 0 = true) as ->.
    { apply Z.leb_le. unfold views, nthZ. cbn [map nth].
      assert ((j + 1) * stride_of 1 v0 <= e1 * stride_of 1 v0) by (apply Z.mul_le_mono_nonneg_r; lia). lia. }
    rewrite advance_all_map.
    rewrite (map_ext (fun v => ptr_of v + j * stride_of 1 v + stride_of 1 v) (fun v => ptr_of v + (j + 1) * stride_of 1 v))
      by (intros; ring).
    rewrite IH by lia. cbn [map]. rewrite <- app_assoc. cbn [app]. rewrite map_map. reflexivity.
Qed.

Lemma fold_rows_y (views : list PatchDataView) ext ny :
  0 <= ny -> forall (base : PatchDataView -> Z) calls,
  fold_left
    (fun (acc2 : list Z * list (list row)) (_ : Z) =>
       let '(ps, calls2) := acc2 in
       (advance_all ps (map (stride_of 1) views), calls2 ++ [map (fun p => (p, ext)) ps]))
    (zrange 0 ny) (map base views, calls) =
  (map (fun v => base v + ny * stride_of 1 v) views,
   calls ++ map (fun j => map (fun v => (base v + j * stride_of 1 v, ext)) views) (zrange 0 ny)).
Proof.
  intros Hny. rewrite <- (Z2Nat.id ny Hny). generalize (Z.to_nat ny) as n. clear ny Hny.
  induction n as [|n IH]; intros base calls.
  - simpl. rewrite app_nil_r. f_equal. apply map_ext. intros; ring.
  - replace (Z.of_nat (S n)) with (0 + Z.of_nat n + 1) by lia. rewrite zrange_snoc by lia.
    rewrite fold_left_app, Z.add_0_l, IH. cbn [fold_left]. rewrite advance_all_map.
    rewrite map_app. cbn [map]. rewrite map_map, app_assoc. f_equal. apply map_ext. intros; ring.
Qed.

Lemma fold_rows_z (views : list PatchDataView) ext ny nz :
  0 <= ny -> 0 <= nz ->
  snd (fold_left
    (fun (acc : list Z * list (list row)) (_ : Z) =>
       let '(fs, calls) := acc in
       (advance_all fs (map (stride_of 2) views),
        snd (fold_left
          (fun (acc2 : list Z * list (list row)) (_ : Z) =>
             let '(ps, calls2) := acc2 in
             (advance_all ps (map (stride_of 1) views), calls2 ++ [map (fun p => (p, ext)) ps]))
          (zrange 0 ny) (fs, calls))))
    (zrange 0 nz) (map ptr_of views, [])) =
  flat_map (fun l => map (fun j => map (fun v => (ptr_of v + l * stride_of 2 v + j * stride_of 1 v, ext)) views)
                         (zrange 0 ny)) (zrange 0 nz).
Proof.
  intros Hny Hnz.
  assert (forall n : nat,
   fold_left
    (fun (acc : list Z * list (list row)) (_ : Z) =>
       let '(fs, calls) := acc in
       (advance_all fs (map (stride_of 2) views),
        snd (fold_left
          (fun (acc2 : list Z * list (list row)) (_ : Z) =>
             let '(ps, calls2) := acc2 in
             (advance_all ps (map (stride_of 1) views), calls2 ++ [map (fun p => (p, ext)) ps]))
          (zrange 0 ny) (fs, calls))))
    (zrange 0 (Z.of_nat n)) (map ptr_of views, []) =
   (map (fun v => ptr_of v + Z.of_nat n * stride_of 2 v) views,
    flat_map (fun l => map (fun j => map (fun v => (ptr_of v + l * stride_of 2 v + j * stride_of 1 v, ext)) views)
                         (zrange 0 ny)) (zrange 0 (Z.of_nat n)))) as H.
  { induction n as [|n IH].
    - simpl. f_equal. apply map_ext. intros; ring.
    - replace (Z.of_nat (S n)) with (0 + Z.of_nat n + 1) by lia. rewrite zrange_snoc by lia.
      rewrite fold_left_app, Z.add_0_l, IH. cbn [fold_left]. rewrite fold_rows_y by assumption.
      cbn [snd]. rewrite advance_all_map, flat_map_app. cbn [flat_map]. rewrite app_nil_r.
      f_equal. apply map_ext. intros; ring. }
  specialize (H (Z.to_nat nz)). rewrite Z2Nat.id in H by assumption. rewrite H. reflexivity.
Qed.

(** ** SliceLast *)

Lemma strides_left_app e x :
  strides_of (LayoutLeft (e ++ [x])) = strides_of (LayoutLeft e) ++ [product e].
Proof.
  unfold strides_of. cbn [map_extents]. rewrite app_length. cbn [length]. rewrite seq_app, map_app. f_equal.
  - apply map_ext_in. intros r Hr. apply in_seq in Hr. cbn [map_stride]. unfold stride_left.
    apply fold_left_ext_in. intros s d Hd. apply in_seq in Hd. unfold nthZ. rewrite app_nth1 by lia. reflexivity.
  - cbn [seq map map_stride]. f_equal. rewrite <- Size_product. unfold stride_left, Size_. cbn [Nat.add].
    apply fold_left_ext_in. intros s d Hd. apply in_seq in Hd. unfold nthZ. rewrite app_nth1 by lia. reflexivity.
Qed.

Lemma dot_app s t i j : length s = length i -> dot (s ++ t) (i ++ j) = dot s i + dot t j.
Proof.
  revert i; induction s as [|x s IH]; intros [|k i] H; try discriminate; [reflexivity|].
  cbn [app dot]. rewrite IH by (simpl in H; lia). lia.
Qed.

Lemma dot_zeros s n : dot s (repeat 0 n) = 0.
Proof. revert n; induction s; intros [|n]; cbn [repeat dot]; try lia. rewrite IHs. lia. Qed.

Lemma map_nthZ_firstn l n : (n <= length l)%nat -> map (nthZ l) (seq 0 n) = firstn n l.
Proof.
  revert n; induction l as [|x l IH]; intros [|n] H; simpl in *; try lia; try reflexivity.
  rewrite <- seq_shift, map_map. f_equal. apply IH. lia.
Qed.

Lemma split_last {A} (l : list A) n : length l = S n -> exists l' x, l = l' ++ [x] /\ length l' = n.
Proof.
  intros H. destruct (exists_last (l := l)) as (l' & x & ->); [intros ->; discriminate|].
  exists l', x. split; [reflexivity|]. rewrite app_length in H. simpl in H. lia.
Qed.

Lemma map2_app {A B C} (f : A -> B -> C) a b x y :
  length a = length b -> map2 f (a ++ [x]) (b ++ [y]) = map2 f a b ++ [f x y].
Proof.
  revert b; induction a as [|p a IH]; intros [|q b] H; try discriminate; [reflexivity|].
  unfold map2 in *. cbn [app combine map]. rewrite IH by (simpl in H; lia). reflexivity.
Qed.

Lemma product_app a b : product (a ++ b) = product a * product b.
Proof. unfold product. induction a as [|x a IH]; cbn [app fold_right]; [lia|]. rewrite IH. ring. Qed.

Lemma strides_right_app_one e : strides_of (LayoutRight (e ++ [1])) = strides_of (LayoutRight e) ++ [1].
Proof.
  induction e as [|x e IH]; [reflexivity|].
  cbn [app]. rewrite !strides_right_cons, IH, product_app. cbn [app product fold_right].
  rewrite !Z.mul_1_r. reflexivity.
Qed.

Lemma slice_last_at v c i n :
  view_ok v -> leading_strides_kept (md_map (pdv_span v)) ->
  length (pdv_origin v) = S n -> nthZ (pdv_origin v) n = 0 -> length i = n ->
  pdv_at (SliceLast v c) i = pdv_at v (i ++ [c]).
Proof.
  intros Hv Hm Ho Hz Hi. unfold view_ok in Hv.
  destruct v as [[p m] o]. cbn [pdv_span pdv_origin md_map md_ptr] in *.
  destruct (split_last o n Ho) as (o' & z & -> & Lo).
  destruct (split_last (map_extents m) n ltac:(congruence)) as (e & x & Ee & Le).
  assert (z = 0) as ->. { unfold nthZ in Hz. rewrite app_nth2 in Hz by lia. rewrite Lo, Nat.sub_diag in Hz. exact Hz. }
  unfold SliceLast, pdv_at, md_at. cbn [pdv_span pdv_origin md_map md_ptr].
  rewrite Ee, app_length. cbn [length]. replace (length e + 1 - 1)%nat with n by lia.
  rewrite firstn_app. replace (n - length o')%nat with O by lia. rewrite firstn_O, app_nil_r.
  replace (firstn n o') with o' by (rewrite <- Lo; symmetry; apply firstn_all).
  rewrite map2_app by congruence. rewrite Z.sub_0_r.
  change (map (fun k => nthZ (e ++ [x]) k) (seq 0 n)) with (map (nthZ (e ++ [x])) (seq 0 n)).
  rewrite (map_nthZ_firstn (e ++ [x]) n) by (rewrite app_length; simpl; lia).
  rewrite firstn_app. replace (n - length e)%nat with O by lia. rewrite firstn_O, app_nil_r.
  replace (firstn n e) with e by (rewrite <- Le; symmetry; apply firstn_all).
  assert (length (map2 (fun i o => i - o) i o') = n) as Lm by (rewrite map2_length; congruence).
  assert (exists st s_last, strides_of m = st ++ [s_last] /\ length st = n /\
     (forall j, length j = n ->
       map_index (match m with
                      | LayoutLeft _ => LayoutLeft e
                      | LayoutRight _ => LayoutRight e
                      | LayoutStride _ _ => LayoutStride e (map (fun k => map_stride m k) (seq 0 n))
                      end) j = dot st j)) as (st & sl & Es & Lst & Hst).
  { destruct m as [e0|e0|e0 s]; cbn [map_extents leading_strides_kept] in *; subst e0.
    - exists (strides_of (LayoutLeft e)), (product e). split; [apply strides_left_app|].
      split; [unfold strides_of; rewrite map_length, seq_length; assumption|].
      intros j Hj. apply map_index_dot. simpl. congruence.
    - assert (x = 1) as ->.
      { rewrite app_length in Hm. simpl in Hm. unfold nthZ in Hm. rewrite app_nth2 in Hm by lia.
        replace (length e + 1 - 1 - length e)%nat with O in Hm by lia. exact Hm. }
      exists (strides_of (LayoutRight e)), 1. split; [apply strides_right_app_one|].
      split; [unfold strides_of; rewrite map_length, seq_length; assumption|].
      intros j Hj. apply map_index_dot. simpl. congruence.
    - destruct (split_last s n) as (st & sl & -> & Lst); [rewrite Hm, app_length; simpl; lia|].
      exists st, sl. rewrite strides_of_stride by assumption. split; [reflexivity|]. split; [assumption|].
      intros j Hj. cbn [map_stride].
      rewrite map_nthZ_firstn by (rewrite app_length; lia).
      rewrite firstn_app. replace (n - length st)%nat with O by lia. rewrite firstn_O, app_nil_r.
      rewrite <- Lst. rewrite firstn_all. rewrite map_index_dot by (simpl; congruence).
      rewrite strides_of_stride by congruence. reflexivity. }
  rewrite Hst by assumption.
  rewrite !map_index_dot; rewrite ?Ee, ?app_length, ?repeat_length; simpl; try lia.
  rewrite Es, !dot_app by (rewrite ?repeat_length; congruence). rewrite dot_zeros. lia.
Qed.

(** ** Assembled statements about rows *)

Lemma md_at_2 s k j :
  length (map_extents (md_map s)) = 2%nat ->
  md_at s [k; j] = md_ptr s + (map_stride (md_map s) 0 * k + map_stride (md_map s) 1 * j).
Proof. intros H. unfold md_at. rewrite map_index_dot by (rewrite H; reflexivity). unfold strides_of. rewrite H. cbn [seq map dot]. lia. Qed.

Lemma md_at_1 s k :
  length (map_extents (md_map s)) = 1%nat -> md_at s [k] = md_ptr s + map_stride (md_map s) 0 * k.
Proof. intros H. unfold md_at. rewrite map_index_dot by (rewrite H; reflexivity). unfold strides_of. rewrite H. cbn [seq map dot]. lia. Qed.

Lemma md_at_3 s k j l :
  length (map_extents (md_map s)) = 3%nat ->
  md_at s [k; j; l] =
  md_ptr s + (map_stride (md_map s) 0 * k + map_stride (md_map s) 1 * j + map_stride (md_map s) 2 * l).
Proof. intros H. unfold md_at. rewrite map_index_dot by (rewrite H; reflexivity). unfold strides_of. rewrite H. cbn [seq map dot]. lia. Qed.

Lemma rows_rank1 fuel v0 rest :
  Forall (row_view 1) (v0 :: rest) -> 0 <= extent0 v0 0 ->
  exists calls, ForEachRow fuel 1 (v0 :: rest) = LoopDone calls /\
    map (map row_elements) calls =
    [map (fun v => map (fun k => md_at (pdv_span v) [k]) (interval 0 (extent0 v0 0))) (v0 :: rest)].
Proof.
  intros Hv He. exists [map (fun p => (p, extent0 v0 0)) (map ptr_of (v0 :: rest))]. split; [reflexivity|].
  remember (v0 :: rest) as views. cbn [map]. f_equal. rewrite !map_map.
  rewrite Forall_forall in Hv. apply map_ext_in. intros v Hin. destruct (Hv v Hin) as [Hr H0].
  unfold row_elements. cbn [fst snd]. apply map_ext. intros k. rewrite md_at_1 by assumption.
  rewrite H0. unfold ptr_of. lia.
Qed.

Lemma first_view_bounds v0 :
  first_view_ok (md_map (pdv_span v0)) ->
  0 < stride_of 1 v0 /\ 0 <= extent0 v0 1 /\
  extent0 v0 1 * stride_of 1 v0 <= required_span_size (md_map (pdv_span v0)) < (extent0 v0 1 + 1) * stride_of 1 v0.
Proof.
  unfold stride_of, extent0. destruct (md_map (pdv_span v0)) as [e|e|e s].
  - destruct e as [|e0 [|e1 [|]]]; cbn [first_view_ok]; try tauto. intros [H0 H1].
    cbn [map_stride map_extents nth required_span_size]. rewrite Size_product.
    unfold stride_left. cbn [seq fold_left nthZ nth]. unfold nthZ. cbn [nth product fold_right]. nia.
  - cbn [first_view_ok]. tauto.
  - destruct e as [|e0 [|e1 [|]]]; cbn [first_view_ok]; try tauto; destruct s as [|s0 [|s1 [|]]]; try tauto.
    intros (-> & H1 & H2 & H3). unfold nthZ, required_span_size.
    cbn [map_stride map_extents nth length Nat.sub seq fold_left nthZ]. unfold nthZ. cbn [nth]. nia.
Qed.

Lemma rows_rank2 v0 rest :
  Forall (row_view 2) (v0 :: rest) -> first_view_ok (md_map (pdv_span v0)) ->
  exists calls, (forall fuel, (Z.to_nat (extent0 v0 1) < fuel)%nat -> ForEachRow fuel 2 (v0 :: rest) = LoopDone calls) /\
    map (map row_elements) calls =
    map (fun j => map (fun v => map (fun k => md_at (pdv_span v) [k; j]) (interval 0 (extent0 v0 0))) (v0 :: rest))
        (interval 0 (extent0 v0 1)).
Proof.
  intros Hv Hf. destruct (first_view_bounds v0 Hf) as (Hs & He & Hreq).
  exists (map (fun j => map (fun v => (ptr_of v + j * stride_of 1 v, extent0 v0 0)) (v0 :: rest)) (zrange 0 (extent0 v0 1))).
  split.
  - intros fuel Hfuel. unfold ForEachRow. cbn [nth].
    pose proof (row_loop_spec v0 rest (extent0 v0 0) (required_span_size (md_map (pdv_span v0))) (extent0 v0 1)
                  Hs He Hreq (Z.to_nat (extent0 v0 1)) 0 fuel []) as H.
    cbv zeta in H. rewrite app_nil_l in H. rewrite <- H by lia.
    rewrite (map_ext (fun v => ptr_of v + 0 * stride_of 1 v) ptr_of) by (intros; lia). reflexivity.
  - rewrite map_map. apply map_ext. intros j. rewrite map_map.
    rewrite Forall_forall in Hv. apply map_ext_in. intros v Hin. destruct (Hv v Hin) as [Hr H0].
    unfold row_elements. cbn [fst snd]. apply map_ext. intros k. rewrite md_at_2 by assumption.
    rewrite H0. unfold ptr_of, stride_of. lia.
Qed.

Lemma rows_rank3 fuel v0 rest :
  Forall (row_view 3) (v0 :: rest) -> 0 <= extent0 v0 1 -> 0 <= extent0 v0 2 ->
  exists calls, ForEachRow fuel 3 (v0 :: rest) = LoopDone calls /\
    map (map row_elements) calls =
    flat_map (fun l => map (fun j =>
       map (fun v => map (fun k => md_at (pdv_span v) [k; j; l]) (interval 0 (extent0 v0 0))) (v0 :: rest))
        (interval 0 (extent0 v0 1))) (interval 0 (extent0 v0 2)).
Proof.
  intros Hv H1 H2. eexists. split.
  - unfold ForEachRow. cbn [nth].
    exact (f_equal LoopDone (fold_rows_z (v0 :: rest) (extent0 v0 0) (extent0 v0 1) (extent0 v0 2) H1 H2)).
  - rewrite map_flat_map. apply flat_map_ext. intros l. rewrite map_map. apply map_ext. intros j. rewrite map_map.
    rewrite Forall_forall in Hv. apply map_ext_in. intros v Hin. destruct (Hv v Hin) as [Hr H0].
    unfold row_elements. cbn [fst snd]. apply map_ext. intros k. rewrite md_at_3 by assumption.
    rewrite H0. unfold ptr_of, stride_of. lia.
Qed.

Lemma row_loop_stuck fuel ext rest_s rest_p last p calls :
  0 <= last - p ->
  exists calls', row_loop fuel last ext (0 :: rest_s) (p :: rest_p) calls = LoopRunning calls'.
Proof.
  revert rest_p p calls; induction fuel as [|fuel IH]; intros rest_p p calls H.
  - eexists; reflexivity.
  - cbn [row_loop]. unfold nthZ. cbn [nth]. destruct (Z.leb_spec 0 (last - p)); [|lia].
    unfold advance_all, map2. cbn [combine map fst snd]. apply IH. lia.
Qed.

Lemma rows_no_width fuel p e1 o rest :
  exists calls, ForEachRow fuel 2 (mkView (mkMdspan p (LayoutLeft [0; e1])) o :: rest) = LoopRunning calls.
Proof.
  unfold ForEachRow. cbn [nth map pdv_span md_ptr md_map]. apply row_loop_stuck.
  cbn [required_span_size]. rewrite Size_product. cbn [product fold_right]. lia.
Qed.

(** ** Equality of mappings *)

Lemma extents_eqb_eq a b : extents_eqb a b = true -> a = b.
Proof.
  unfold extents_eqb. rewrite andb_true_iff, Nat.eqb_eq, forallb_forall. intros [Hl H].
  apply (nth_ext _ _ 0 0); [assumption|]. intros n Hn. apply Z.eqb_eq. apply H. apply in_seq. lia.
Qed.
