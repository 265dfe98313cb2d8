(** Proofs about layouts, slicing and sub views. *)
From Coq Require Import List ZArith Lia Bool Sorting.Sorted.
From Verif Require Import ArrayModel ArraySpec.
Import ListNotations.
Local Open Scope Z_scope.

(** ** Lists and sums *)

Fixpoint dot (s i : list Z) : Z :=
  match s, i with
  | x :: s', y :: i' => x * y + dot s' i'
  | _, _ => 0
  end.

Lemma fold_sum_acc (f : nat -> Z) l a :
  fold_left (fun o r => o + f r) l a = a + fold_left (fun o r => o + f r) l 0.
Proof.
  revert a; induction l as [|x l IH]; intros a; simpl; [lia|].
  rewrite IH, (IH (f x)). lia.
Qed.

Lemma fold_sum_shift (f : nat -> Z) n k a :
  fold_left (fun o r => o + f r) (seq (S k) n) a = fold_left (fun o r => o + f (S r)) (seq k n) a.
Proof. revert k a; induction n; intros; simpl; [reflexivity|]. apply IHn. Qed.

Lemma fold_dot s i :
  length i = length s ->
  fold_left (fun o r => o + nthZ s r * nthZ i r) (seq 0 (length s)) 0 = dot s i.
Proof.
  revert i; induction s as [|x s IH]; intros [|y i] H; simpl in *; try lia.
  rewrite fold_sum_acc, (fold_sum_shift (fun r => nthZ (x :: s) r * nthZ (y :: i) r)).
  unfold nthZ at 1 2. simpl.
  rewrite <- (IH i) by lia.
  reflexivity.
Qed.

Definition strides_of (m : mapping) : list Z :=
  map (map_stride m) (seq 0 (length (map_extents m))).

Lemma nthZ_map_seq (f : nat -> Z) n r : (r < n)%nat -> nthZ (map f (seq 0 n)) r = f r.
Proof.
  intros H. unfold nthZ. rewrite (nth_indep _ 0 (f 0%nat)) by (rewrite map_length, seq_length; lia).
  rewrite map_nth, seq_nth by lia. reflexivity.
Qed.

Lemma fold_left_ext_in {A B} (f g : A -> B -> A) l a :
  (forall x b, In b l -> f x b = g x b) -> fold_left f l a = fold_left g l a.
Proof.
  revert a; induction l as [|x l IH]; intros a H; simpl; [reflexivity|].
  rewrite H by (left; reflexivity). apply IH. intros; apply H; right; assumption.
Qed.

Lemma map_index_dot m i :
  length i = length (map_extents m) -> map_index m i = dot (strides_of m) i.
Proof.
  intros H. unfold map_index.
  rewrite <- fold_dot by (unfold strides_of; rewrite map_length, seq_length; assumption).
  unfold strides_of at 2. rewrite map_length, seq_length.
  apply fold_left_ext_in. intros x b Hb. apply in_seq in Hb.
  unfold strides_of. rewrite nthZ_map_seq by lia. reflexivity.
Qed.

Lemma dot_plus s a b :
  length a = length s -> length b = length s ->
  dot s (plus_index a b) = dot s a + dot s b.
Proof.
  revert a b; induction s as [|x s IH]; intros [|p a] [|q b] Ha Hb; simpl in *; try lia.
  unfold plus_index in *. simpl. rewrite IH by lia. lia.
Qed.

Lemma plus_index_length a b : length a = length b -> length (plus_index a b) = length a.
Proof. intros H; unfold plus_index; rewrite map_length, combine_length. lia. Qed.

Lemma map_index_plus m a b :
  length a = length (map_extents m) -> length b = length (map_extents m) ->
  map_index m (plus_index a b) = map_index m a + map_index m b.
Proof.
  intros Ha Hb. rewrite !map_index_dot; try (rewrite ?plus_index_length; congruence).
  apply dot_plus; unfold strides_of; rewrite map_length, seq_length; assumption.
Qed.

(** ** Strides of the dense layouts *)

Lemma fold_prod_acc (f : nat -> Z) l a :
  fold_left (fun s d => s * f d) l a = a * fold_left (fun s d => s * f d) l 1.
Proof.
  revert a; induction l as [|x l IH]; intros a; cbn [fold_left]; [lia|].
  rewrite IH, (IH (1 * f x)). ring.
Qed.

Lemma fold_prod_shift (f : nat -> Z) n k a :
  fold_left (fun s d => s * f d) (seq (S k) n) a = fold_left (fun s d => s * f (S d)) (seq k n) a.
Proof. revert k a; induction n; intros; simpl; [reflexivity|]. apply IHn. Qed.

Lemma Size_product e : Size_ e = product e.
Proof.
  unfold Size_. induction e as [|x e IH]; [reflexivity|].
  cbn [length seq fold_left]. rewrite fold_prod_acc, (fold_prod_shift (nthZ (x :: e))).
  change (fun s d => s * nthZ (x :: e) (S d)) with (fun s d => s * nthZ e d).
  rewrite IH. unfold nthZ, product. cbn [nth fold_right]. ring.
Qed.

Lemma stride_left_S x e r : stride_left (x :: e) (S r) = x * stride_left e r.
Proof.
  unfold stride_left. cbn [seq fold_left]. rewrite fold_prod_acc, (fold_prod_shift (nthZ (x :: e))).
  change (fun s d => s * nthZ (x :: e) (S d)) with (fun s d => s * nthZ e d).
  unfold nthZ at 1. cbn [nth]. ring.
Qed.

Lemma stride_right_0 x e : stride_right (x :: e) 0 = product e.
Proof.
  unfold stride_right. rewrite <- Size_product. unfold Size_. cbn [length].
  replace (S (length e) - 1)%nat with (length e) by lia.
  rewrite (fold_prod_shift (nthZ (x :: e))). reflexivity.
Qed.

Lemma stride_right_S x e r : stride_right (x :: e) (S r) = stride_right e r.
Proof.
  unfold stride_right. cbn [length].
  rewrite (fold_prod_shift (nthZ (x :: e))).
  change (fun s d => s * nthZ (x :: e) (S d)) with (fun s d => s * nthZ e d).
  f_equal.
Qed.

Lemma dot_scale c s i : dot (map (Z.mul c) s) i = c * dot s i.
Proof.
  revert i; induction s as [|x s IH]; intros [|y i]; cbn [map dot]; try lia.
  rewrite IH. ring.
Qed.

Lemma strides_left_cons x e :
  strides_of (LayoutLeft (x :: e)) = 1 :: map (Z.mul x) (strides_of (LayoutLeft e)).
Proof.
  unfold strides_of. cbn [map_extents length seq map]. f_equal.
  rewrite <- seq_shift, map_map, map_map. apply map_ext. intros r.
  cbn [map_stride]. apply stride_left_S.
Qed.

Lemma strides_right_cons x e :
  strides_of (LayoutRight (x :: e)) = product e :: strides_of (LayoutRight e).
Proof.
  unfold strides_of. cbn [map_extents length seq map]. f_equal.
  - apply stride_right_0.
  - rewrite <- seq_shift, map_map. apply map_ext. intros r. cbn [map_stride]. apply stride_right_S.
Qed.

Lemma left_index_cons x e k i :
  length i = length e ->
  map_index (LayoutLeft (x :: e)) (k :: i) = k + x * map_index (LayoutLeft e) i.
Proof.
  intros H. rewrite !map_index_dot by (simpl; lia). rewrite strides_left_cons.
  cbn [dot]. rewrite dot_scale. lia.
Qed.

Lemma right_index_cons x e k i :
  length i = length e ->
  map_index (LayoutRight (x :: e)) (k :: i) = product e * k + map_index (LayoutRight e) i.
Proof.
  intros H. rewrite !map_index_dot by (simpl; lia). rewrite strides_right_cons. reflexivity.
Qed.

(** ** Valid indices *)

Lemma valid_nil i : valid_index [] i <-> i = [].
Proof.
  split; [intros [H _]; destruct i; [reflexivity|discriminate]|].
  intros ->. split; [reflexivity|]. simpl; intros; lia.
Qed.

Lemma valid_cons x e i :
  valid_index (x :: e) i <-> exists k i', i = k :: i' /\ 0 <= k < x /\ valid_index e i'.
Proof.
  split.
  - intros [Hl H]. destruct i as [|k i']; [discriminate|].
    exists k, i'. split; [reflexivity|]. split; [apply (H O); simpl; lia|].
    split; [simpl in Hl; lia|]. intros r Hr. apply (H (S r)). simpl; lia.
  - intros (k & i' & -> & Hk & Hl & H). split; [simpl; lia|].
    intros [|r] Hr; simpl; [assumption|]. apply H. simpl in Hr; lia.
Qed.

Lemma product_nonneg e : extents_ok e -> 0 <= product e.
Proof. induction 1; simpl; [lia|]. nia. Qed.

(** ** Bijections *)

Lemma left_bijective e : extents_ok e -> bijective_layout (LayoutLeft e).
Proof.
  induction 1 as [|x e Hx He IH]; unfold bijective_layout in *; cbn [map_extents] in *.
  - split; [|split].
    + intros i H. apply valid_nil in H; subst; cbn; lia.
    + intros i j Hi Hj _. apply valid_nil in Hi, Hj. congruence.
    + intros k Hk. exists []. split; [apply valid_nil; reflexivity|]. cbn in *; lia.
  - destruct IH as (R & I & S). cbn [product fold_right]. fold (product e). split; [|split].
    + intros i H. apply valid_cons in H as (k & i' & -> & Hk & Hi'). rewrite left_index_cons by apply Hi'.
      specialize (R _ Hi'). remember (map_index (LayoutLeft e) i') as a. remember (product e) as p.
      assert (x * a <= x * (p - 1)) by (apply Z.mul_le_mono_nonneg_l; lia). split; [nia|]. clear - H Hk. nia.
    + intros i j Hi Hj E.
      apply valid_cons in Hi as (k & i' & -> & Hk & Hi'). apply valid_cons in Hj as (l & j' & -> & Hl & Hj').
      rewrite !left_index_cons in E by (apply Hi' || apply Hj').
      assert (map_index (LayoutLeft e) i' = map_index (LayoutLeft e) j') as E'.
      { remember (map_index (LayoutLeft e) i') as a. remember (map_index (LayoutLeft e) j') as b. clear - E Hk Hl. nia. }
      rewrite E' in E. rewrite (I _ _ Hi' Hj' E'). f_equal. lia.
    + intros k Hk. assert (0 < x) by (destruct (Z.eq_dec x 0) as [-> | ]; lia).
      destruct (S (k / x)) as (i & Hi & E).
      { split; [apply Z.div_pos; lia|]. apply Z.div_lt_upper_bound; lia. }
      exists (k mod x :: i). split.
      * apply valid_cons. exists (k mod x), i. split; [reflexivity|].
        split; [apply Z.mod_pos_bound; lia|assumption].
      * rewrite left_index_cons by apply Hi. rewrite E. rewrite (Z.div_mod k x) at 3 by lia. lia.
Qed.

Lemma right_bijective e : extents_ok e -> bijective_layout (LayoutRight e).
Proof.
  induction 1 as [|x e Hx He IH]; unfold bijective_layout in *; cbn [map_extents] in *.
  - split; [|split].
    + intros i H. apply valid_nil in H; subst; cbn; lia.
    + intros i j Hi Hj _. apply valid_nil in Hi, Hj. congruence.
    + intros k Hk. exists []. split; [apply valid_nil; reflexivity|]. cbn in *; lia.
  - destruct IH as (R & I & S). cbn [product fold_right]. fold (product e). split; [|split].
    + intros i H. apply valid_cons in H as (k & i' & -> & Hk & Hi'). rewrite right_index_cons by apply Hi'.
      specialize (R _ Hi'). remember (map_index (LayoutRight e) i') as a. remember (product e) as p.
      assert (p * k <= p * (x - 1)) by (apply Z.mul_le_mono_nonneg_l; lia). split; nia.
    + intros i j Hi Hj E.
      apply valid_cons in Hi as (k & i' & -> & Hk & Hi'). apply valid_cons in Hj as (l & j' & -> & Hl & Hj').
      rewrite !right_index_cons in E by (apply Hi' || apply Hj').
      pose proof (R _ Hi'). pose proof (R _ Hj').
      assert (k = l) as ->.
      { remember (map_index (LayoutRight e) i') as a. remember (map_index (LayoutRight e) j') as b.
        remember (product e) as p. clear - E H H0. nia. }
      f_equal. apply I; try assumption. lia.
    + intros k Hk. assert (0 < product e)
        by (pose proof (product_nonneg e He); destruct (Z.eq_dec (product e) 0) as [E0 | ]; [rewrite E0 in Hk|]; lia).
      destruct (S (k mod product e)) as (i & Hi & E).
      { apply Z.mod_pos_bound; lia. }
      exists (k / product e :: i). split.
      * apply valid_cons. exists (k / product e), i. split; [reflexivity|].
        split; [|assumption]. split; [apply Z.div_pos; lia|]. apply Z.div_lt_upper_bound; lia.
      * rewrite right_index_cons by apply Hi. rewrite E. rewrite (Z.div_mod k (product e)) at 3 by lia. lia.
Qed.

(** ** Strides are the distance of neighbours *)

Lemma dot_shifted s i j r d :
  length i = length s -> shifted i j r d -> (r < length i)%nat ->
  dot s j = dot s i + nth r s 0 * d.
Proof.
  revert i j r; induction s as [|x s IH]; intros [|p i] [|q j] r Hl (Hlen & Hr & Hk) Hlt; simpl in *; try lia.
  destruct r as [|r].
  - assert (j = i) as ->.
    { apply (nth_ext _ _ 0 0); [lia|]. intros n _. apply (Hk (S n)). lia. }
    rewrite Hr. ring.
  - rewrite (IH i j r); [|lia| |lia].
    + rewrite (Hk O) by lia. ring.
    + split; [lia|]. split; [assumption|]. intros k Hne. apply (Hk (S k)). lia.
Qed.

Lemma map_index_shifted m i j r d :
  length i = length (map_extents m) -> shifted i j r d -> (r < length i)%nat ->
  map_index m j = map_index m i + map_stride m r * d.
Proof.
  intros Hl Hs Hr. rewrite !map_index_dot; [|assumption|destruct Hs; congruence].
  rewrite (dot_shifted (strides_of m) i j r d); [| |assumption|assumption].
  - f_equal. f_equal. unfold strides_of. rewrite <- (nthZ_map_seq (map_stride m) (length (map_extents m)) r) by lia.
    reflexivity.
  - unfold strides_of. rewrite map_length, seq_length. assumption.
Qed.

(** ** Mixed static and dynamic extents *)

Lemma find_dynamic_acc st n k0 a :
  fold_left (fun k dim => if Z.eqb (nthZ st dim) dynamic_extent then S k else k) (seq a n) k0 =
  (k0 + fold_left (fun k dim => if Z.eqb (nthZ st dim) dynamic_extent then S k else k) (seq a n) O)%nat.
Proof.
  revert a k0; induction n; intros; cbn [seq fold_left]; [lia|].
  destruct (Z.eqb (nthZ st a) dynamic_extent); [|apply IHn].
  rewrite (IHn (S a) (S k0)), (IHn (S a) 1%nat). lia.
Qed.

Lemma find_dynamic_shift s st n k0 a :
  fold_left (fun k dim => if Z.eqb (nthZ (s :: st) dim) dynamic_extent then S k else k) (seq (S a) n) k0 =
  fold_left (fun k dim => if Z.eqb (nthZ st dim) dynamic_extent then S k else k) (seq a n) k0.
Proof. revert a k0; induction n; intros; cbn [seq fold_left]; [reflexivity|]. apply IHn. Qed.

Lemma find_dynamic_S s st n :
  find_dynamic_extent_index (s :: st) (S n) =
  ((if Z.eqb s (-1) then 1 else 0) + find_dynamic_extent_index st n)%nat.
Proof.
  unfold find_dynamic_extent_index. cbn [seq fold_left].
  rewrite find_dynamic_shift, find_dynamic_acc. unfold nthZ at 1, dynamic_extent. simpl.
  destruct (Z.eqb s (-1)); reflexivity.
Qed.

Lemma storage_extents_fill st dyn : storage_extents st dyn = fill_dynamic st dyn.
Proof.
  revert dyn; induction st as [|s st IH]; intros dyn; [reflexivity|].
  unfold storage_extents in *. cbn [length seq map fill_dynamic].
  rewrite <- seq_shift, map_map.
  assert (forall r, storage_extent (s :: st) dyn (S r) =
                    storage_extent st (if Z.eqb s (-1) then tl dyn else dyn) r) as E.
  { intros r. unfold storage_extent. rewrite find_dynamic_S.
    change (nthZ (s :: st) (S r)) with (nthZ st r).
    destruct (Z.eqb (nthZ st r) dynamic_extent); [|reflexivity].
    destruct (Z.eqb s (-1)); [|reflexivity]. unfold nthZ. destruct dyn; simpl.
    - destruct (find_dynamic_extent_index st r); reflexivity.
    - reflexivity. }
  rewrite (map_ext _ _ E), IH.
  unfold storage_extent at 1, nthZ at 1, dynamic_extent. simpl.
  destruct (Z.eqb s (-1)) eqn:Es; [|reflexivity].
  f_equal. unfold find_dynamic_extent_index, nthZ. simpl. destruct dyn; reflexivity.
Qed.

(** ** Slicing *)

Lemma set_nth_length l k v : length (set_nth l k v) = length l.
Proof. revert k; induction l; intros [|k]; simpl; auto. Qed.

Lemma slice_rank_result slices : slice_rank slices = result_rank slices.
Proof. unfold slice_rank. induction slices as [|[] r IH]; simpl; auto. Qed.

Lemma fold_extents_length (D : list Z) l acc :
  length (fst (fold_left (fun (acc : list Z * nat) i =>
                    if 0 <? nth i D 0
                    then (set_nth (fst acc) (snd acc) (nth i D 0), S (snd acc))
                    else acc) l acc)) = length (fst acc).
Proof.
  revert acc; induction l as [|x l IH]; intros acc; simpl; [reflexivity|].
  rewrite IH. destruct (0 <? nth x D 0); [|reflexivity]. simpl. apply set_nth_length.
Qed.

Lemma make_slice_extents_length e slices : length (make_slice_extents e slices) = result_rank slices.
Proof.
  unfold make_slice_extents. rewrite fold_extents_length. simpl. rewrite repeat_length. apply slice_rank_result.
Qed.

Lemma range_indices_cons s slices :
  make_range_indices (s :: slices) =
  (if is_range s then [O] else []) ++ map S (make_range_indices slices).
Proof.
  unfold make_range_indices. cbn [length seq filter].
  assert (filter (fun i => is_range (nth i (s :: slices) All)) (seq 1 (length slices)) =
          map S (filter (fun i => is_range (nth i slices All)) (seq 0 (length slices)))) as E.
  { rewrite <- seq_shift. generalize (seq 0 (length slices)). induction l as [|x l IH]; [reflexivity|].
    cbn [map filter]. change (nth (S x) (s :: slices) All) with (nth x slices All).
    destruct (is_range (nth x slices All)); cbn [map]; rewrite IH; reflexivity. }
  rewrite E. simpl. destruct (is_range s); reflexivity.
Qed.

Lemma dot_slices s slices i :
  length slices = length s -> length i = result_rank slices ->
  dot s (map make_origin slices) + dot (map (nthZ s) (make_range_indices slices)) i =
  dot s (expand slices i).
Proof.
  revert s i; induction slices as [|sl slices IH]; intros [|x s] i Hl Hi; cbn [length] in *; try lia.
  - reflexivity.
  - rewrite range_indices_cons, map_app, map_map.
    assert (map (fun k => nthZ (x :: s) (S k)) (make_range_indices slices) =
            map (nthZ s) (make_range_indices slices)) as E by reflexivity.
    rewrite E. destruct sl as [n|a b|]; cbn [is_range map app make_origin dot expand result_rank hd tl] in *.
    + rewrite <- (IH s i) by lia. ring.
    + destruct i as [|k i]; [discriminate|]. cbn [dot hd tl]. change (nthZ (x :: s) 0) with x.
      rewrite <- (IH s i) by (simpl in Hi; lia). ring.
    + destruct i as [|k i]; [discriminate|]. cbn [dot hd tl]. change (nthZ (x :: s) 0) with x.
      rewrite <- (IH s i) by (simpl in Hi; lia). ring.
Qed.

Lemma range_indices_length slices : length (make_range_indices slices) = result_rank slices.
Proof.
  induction slices as [|sl slices IH]; [reflexivity|].
  rewrite range_indices_cons, app_length, map_length, IH. destruct sl; reflexivity.
Qed.

Lemma range_indices_lt slices k : In k (make_range_indices slices) -> (k < length slices)%nat.
Proof. unfold make_range_indices. intros H. apply filter_In in H as [H _]. apply in_seq in H. lia. Qed.

Lemma map_nthZ_seq (l : list Z) : map (nthZ l) (seq 0 (length l)) = l.
Proof.
  induction l as [|x l IH]; [reflexivity|].
  cbn [length seq map]. rewrite <- seq_shift, map_map. f_equal. exact IH.
Qed.

Lemma strides_of_stride e s : length s = length e -> strides_of (LayoutStride e s) = s.
Proof. intros H. unfold strides_of. cbn [map_extents]. rewrite <- H. apply map_nthZ_seq. Qed.

Lemma expand_length slices i : length (expand slices i) = length slices.
Proof. revert i; induction slices as [|[] r IH]; intros; simpl; auto. Qed.

Lemma subspan_at src slices i :
  length slices = length (map_extents (md_map src)) -> length i = result_rank slices ->
  md_at (subspan src slices) i = md_at src (expand slices i).
Proof.
  intros Hl Hi. unfold md_at, subspan. cbn [md_ptr md_map].
  assert (length (make_slice_array (md_map src) slices) = result_rank slices) as Ha.
  { unfold make_slice_array. rewrite map_length. apply range_indices_length. }
  rewrite !map_index_dot; try (rewrite ?map_length, ?expand_length; congruence).
  2: { cbn [map_extents]. rewrite make_slice_extents_length. assumption. }
  rewrite strides_of_stride by (rewrite make_slice_extents_length; assumption).
  rewrite <- dot_slices; [|unfold strides_of; rewrite map_length, seq_length; assumption|assumption].
  unfold make_slice_array.
  assert (map (map_stride (md_map src)) (make_range_indices slices) =
          map (nthZ (strides_of (md_map src))) (make_range_indices slices)) as E.
  { apply map_ext_in. intros k Hk. apply range_indices_lt in Hk.
    unfold strides_of. rewrite nthZ_map_seq by lia. reflexivity. }
  rewrite E. ring.
Qed.

(** *** Extents of a slice *)

Definition posb (x : Z) : bool := 0 <? x.

Lemma fold_nth_list {A} (g : A -> Z -> A) (D : list Z) acc :
  fold_left (fun acc i => g acc (nth i D 0)) (seq 0 (length D)) acc = fold_left g D acc.
Proof.
  revert g acc; induction D as [|x D IH]; intros g acc; [reflexivity|].
  cbn [length seq fold_left nth]. rewrite <- (IH g).
  rewrite <- seq_shift.
  generalize (seq 0 (length D)), (g acc x). induction l as [|y l IHl]; intros a; [reflexivity|].
  cbn [map fold_left nth]. apply IHl.
Qed.

Lemma set_nth_app pre v r w : set_nth (pre ++ v :: r) (length pre) w = (pre ++ [w]) ++ r.
Proof. induction pre; simpl; [reflexivity|]. rewrite IHpre. reflexivity. Qed.

Lemma fold_extents (D : list Z) pre k :
  (length (filter posb D) <= k)%nat ->
  fst (fold_left (fun (acc : list Z * nat) x =>
               if posb x then (set_nth (fst acc) (snd acc) x, S (snd acc)) else acc)
         D (pre ++ repeat 0 k, length pre)) =
  pre ++ filter posb D ++ repeat 0 (k - length (filter posb D)).
Proof.
  revert pre k; induction D as [|x D IH]; intros pre k H.
  - cbn [fold_left filter fst length app]. rewrite Nat.sub_0_r. reflexivity.
  - cbn [fold_left filter] in *. destruct (posb x).
    + cbn [length] in H. destruct k as [|k]; [lia|].
      cbn [repeat fst snd]. rewrite set_nth_app.
      replace (S (length pre)) with (length (pre ++ [x])) by (rewrite app_length; simpl; lia).
      rewrite IH by lia. rewrite <- app_assoc. reflexivity.
    + apply IH. assumption.
Qed.

Lemma dyn_length_length e slices : length (dyn_length e slices) = length e.
Proof. unfold dyn_length. rewrite map_length, seq_length. reflexivity. Qed.

Definition range_ok (s : slice) : Prop := match s with Range a b => a <= b | _ => True end.

Lemma dyn_length_cons x e s slices :
  dyn_length (x :: e) (s :: slices) =
  (if map_to_length s <? 0 then x else map_to_length s) :: dyn_length e slices.
Proof.
  unfold dyn_length. cbn [length seq map nth]. f_equal.
  rewrite <- seq_shift, map_map. reflexivity.
Qed.

Lemma dyn_length_filter e slices :
  length slices = length e -> Forall range_ok slices ->
  filter posb (dyn_length e slices) = filter posb (slice_lengths e slices).
Proof.
  revert e; induction slices as [|s slices IH]; intros [|x e] Hl Hr; try discriminate; [reflexivity|].
  inversion Hr as [|? ? Hs Hr']; subst. rewrite dyn_length_cons.
  cbn [filter slice_lengths]. rewrite (IH e); [|simpl in Hl; lia|assumption].
  destruct s as [n|a b|]; cbn [map_to_length].
  - reflexivity.
  - simpl in Hs. destruct (Z.ltb_spec (b - a) 0); [lia|]. reflexivity.
  - reflexivity.
Qed.

Lemma slice_lengths_length e slices : length (slice_lengths e slices) = result_rank slices.
Proof. revert e; induction slices as [|[] r IH]; intros e; simpl; auto. Qed.

Lemma filter_length_le {A} (f : A -> bool) l : (length (filter f l) <= length l)%nat.
Proof. induction l; simpl; [lia|]. destruct (f a); simpl; lia. Qed.

Lemma make_slice_extents_filter e slices :
  length slices = length e -> Forall range_ok slices ->
  make_slice_extents e slices =
  filter posb (slice_lengths e slices) ++
  repeat 0 (result_rank slices - length (filter posb (slice_lengths e slices))).
Proof.
  intros Hl Hr. unfold make_slice_extents.
  rewrite <- (dyn_length_length e slices).
  rewrite (fold_nth_list (fun (acc : list Z * nat) x =>
     if posb x then (set_nth (fst acc) (snd acc) x, S (snd acc)) else acc)).
  rewrite <- dyn_length_filter by assumption.
  rewrite slice_rank_result.
  change (repeat 0 (result_rank slices), O) with ([] ++ repeat 0 (result_rank slices), length (@nil Z)).
  rewrite (fold_extents (dyn_length e slices) []); [reflexivity|].
  rewrite dyn_length_filter by assumption.
  rewrite <- (slice_lengths_length e slices). apply filter_length_le.
Qed.

Lemma filter_all {A} (f : A -> bool) l : forallb f l = true -> filter f l = l.
Proof.
  induction l as [|x l IH]; simpl; [reflexivity|].
  destruct (f x); simpl; [|discriminate]. intros H. rewrite IH by assumption. reflexivity.
Qed.

Lemma subspan_extents src slices :
  length slices = length (map_extents (md_map src)) ->
  Forall (fun x => 0 < x) (slice_lengths (map_extents (md_map src)) slices) ->
  Forall range_ok slices ->
  map_extents (md_map (subspan src slices)) = slice_lengths (map_extents (md_map src)) slices.
Proof.
  intros Hl Hp Hr. cbn [subspan md_map map_extents].
  rewrite make_slice_extents_filter by assumption.
  rewrite filter_all.
  - rewrite slice_lengths_length, Nat.sub_diag. apply app_nil_r.
  - apply forallb_forall. rewrite Forall_forall in Hp. intros x Hx. apply Z.ltb_lt. apply Hp. assumption.
Qed.

(** ** Sub views *)

Lemma map2_length {A B C} (f : A -> B -> C) a b : length a = length b -> length (map2 f a b) = length a.
Proof. intros H. unfold map2. rewrite map_length, combine_length. lia. Qed.

Definition slices_of (v : PatchDataView) (b : IndexBox) : list slice :=
  map2 (fun o e => Range o (o + e)) (map2 (fun lo origin => lo - origin) (lower b) (pdv_origin v))
       (map2 (fun lo up => up - lo) (lower b) (upper b)).

Lemma expand_ranges lo orig up i :
  length orig = length lo -> length up = length lo -> length i = length lo ->
  expand (map2 (fun o e => Range o (o + e)) (map2 (fun lo origin => lo - origin) lo orig)
            (map2 (fun lo up => up - lo) lo up))
         (map2 (fun i o => i - o) i lo) =
  map2 (fun i o => i - o) i orig.
Proof.
  revert orig up i; induction lo as [|l lo IH]; intros [|o orig] [|u up] [|k i] H1 H2 H3;
    try discriminate; [reflexivity|].
  unfold map2 in *. cbn [combine map fst snd expand hd tl]. f_equal; [lia|].
  apply IH; simpl in *; lia.
Qed.

Lemma result_rank_ranges (a b : list Z) :
  result_rank (map2 (fun o e => Range o (o + e)) a b) = length (combine a b).
Proof.
  unfold map2. rewrite <- (map_length (fun p : Z * Z => Range (fst p) (fst p + snd p))).
  induction (combine a b) as [|p l IH]; [reflexivity|]. simpl. rewrite IH. reflexivity.
Qed.

Lemma slices_of_length v b :
  view_ok v -> box_of_rank (length (pdv_origin v)) b -> length (slices_of v b) = length (pdv_origin v).
Proof.
  intros Hv [H1 H2]. unfold slices_of. rewrite !map2_length; try congruence.
  rewrite !map2_length; congruence.
Qed.

Lemma subview_at v b i :
  view_ok v -> box_of_rank (length (pdv_origin v)) b -> length i = length (pdv_origin v) ->
  pdv_at (Subview v b) i = pdv_at v i.
Proof.
  intros Hv Hb Hi. pose proof (slices_of_length v b Hv Hb) as Hs. destruct Hb as [H1 H2].
  unfold pdv_at, Subview. cbn [pdv_span pdv_origin]. fold (slices_of v b).
  rewrite subspan_at.
  - f_equal. apply expand_ranges; congruence.
  - rewrite Hs. exact Hv.
  - unfold slices_of. rewrite result_rank_ranges, combine_length, !map2_length; try congruence. lia.
Qed.

Lemma slice_lengths_ranges e a b :
  length b = length a ->
  slice_lengths e (map2 (fun o x => Range o (o + x)) a b) = b.
Proof.
  revert e b; induction a as [|x a IH]; intros e [|y b] H; try discriminate; [reflexivity|].
  unfold map2 in *. cbn [combine map fst snd slice_lengths]. f_equal; [lia|]. apply IH. simpl in H; lia.
Qed.

Lemma map2_sub_add lo up :
  length up = length lo ->
  map2 (fun extents lo => lo + extents) (map2 (fun lo up => up - lo) lo up) lo = up.
Proof.
  revert up; induction lo as [|l lo IH]; intros [|u up] H; try discriminate; [reflexivity|].
  unfold map2 in *. cbn [combine map fst snd]. f_equal; [lia|]. apply IH. simpl in H; lia.
Qed.

Lemma ranges_ok a b : Forall (fun x => 0 <= x) b -> Forall range_ok (map2 (fun o e => Range o (o + e)) a b).
Proof.
  revert b; induction a as [|x a IH]; intros b H; [constructor|].
  destruct b as [|y b]; [constructor|]. inversion H; subst.
  unfold map2 in *. cbn [combine map fst snd]. constructor; [simpl; lia|]. apply IH. assumption.
Qed.

Lemma subview_extents v b :
  view_ok v -> box_of_rank (length (pdv_origin v)) b ->
  (forall r, (r < length (pdv_origin v))%nat -> nth r (lower b) 0 < nth r (upper b) 0) ->
  map_extents (md_map (pdv_span (Subview v b))) = map2 (fun lo up => up - lo) (lower b) (upper b).
Proof.
  intros Hv Hb Hne. pose proof (slices_of_length v b Hv Hb) as Hs. destruct Hb as [H1 H2].
  assert (Forall (fun x => 0 < x) (map2 (fun lo up => up - lo) (lower b) (upper b))) as Hpos.
  { apply Forall_forall. intros x Hx. unfold map2 in Hx. apply in_map_iff in Hx as ([l u] & <- & Hin).
    apply (In_nth _ _ (0, 0)) in Hin as (r & Hr & E). rewrite combine_length in Hr.
    rewrite combine_nth in E by congruence. injection E as <- <-. simpl.
    specialize (Hne r). lia. }
  unfold Subview. cbn [pdv_span]. fold (slices_of v b).
  rewrite subspan_extents.
  - unfold slices_of. apply slice_lengths_ranges. rewrite !map2_length; congruence.
  - rewrite Hs. exact Hv.
  - unfold slices_of. rewrite slice_lengths_ranges by (rewrite !map2_length; congruence). assumption.
  - unfold slices_of. apply ranges_ok. eapply Forall_impl; [|exact Hpos]. simpl; lia.
Qed.

Lemma subview_box v b :
  view_ok v -> box_of_rank (length (pdv_origin v)) b ->
  (forall r, (r < length (pdv_origin v))%nat -> nth r (lower b) 0 < nth r (upper b) 0) ->
  pdv_box (Subview v b) = b.
Proof.
  intros Hv Hb Hne. unfold pdv_box. rewrite subview_extents by assumption.
  cbn [Subview pdv_origin]. destruct Hb as [H1 H2].
  rewrite map2_sub_add by congruence. destruct b; reflexivity.
Qed.

Lemma subview_ok v b :
  view_ok v -> box_of_rank (length (pdv_origin v)) b -> view_ok (Subview v b).
Proof.
  intros Hv [H1 H2]. unfold view_ok, Subview. cbn [pdv_span pdv_origin subspan md_map map_extents].
  rewrite make_slice_extents_length, result_rank_ranges, combine_length, !map2_length; try congruence. lia.
Qed.

(** A chain of sub views. *)
Definition subviews (v : PatchDataView) (bs : list IndexBox) : PatchDataView := fold_left Subview bs v.

Lemma subviews_at v bs i :
  view_ok v -> Forall (box_of_rank (length (pdv_origin v))) bs -> length i = length (pdv_origin v) ->
  pdv_at (subviews v bs) i = pdv_at v i.
Proof.
  revert v; induction bs as [|b bs IH]; intros v Hv Hb Hi; [reflexivity|].
  inversion Hb as [|? ? Hb1 Hb2]; subst. cbn [subviews fold_left]. fold (subviews (Subview v b) bs).
  assert (length (pdv_origin (Subview v b)) = length (pdv_origin v)) as E.
  { cbn [Subview pdv_origin]. apply Hb1. }
  rewrite IH.
  - apply subview_at; assumption.
  - apply subview_ok; assumption.
  - rewrite E. assumption.
  - congruence.
Qed.

Lemma nth_map2 (f : Z -> Z -> Z) a b r :
  length a = length b -> (r < length a)%nat -> nth r (map2 f a b) 0 = f (nth r a 0) (nth r b 0).
Proof.
  revert b r; induction a as [|x a IH]; intros [|y b] r H Hr; simpl in *; try lia.
  destruct r; [reflexivity|]. apply IH; lia.
Qed.

Lemma local_valid e o i :
  length o = length e ->
  inside o (map2 (fun extents lo => lo + extents) e o) i ->
  valid_index e (map2 (fun i o => i - o) i o).
Proof.
  intros Ho (Hl & _ & H).
  assert (length (map2 (fun i o => i - o) i o) = length i) as E by (apply map2_length; assumption).
  split; [congruence|].
  intros r Hr. specialize (H r ltac:(lia)).
  rewrite nth_map2 in * by lia. lia.
Qed.

Lemma dense_at_bounds v i :
  view_ok v -> extents_ok (map_extents (md_map (pdv_span v))) ->
  (forall e s, md_map (pdv_span v) <> LayoutStride e s) ->
  in_box (pdv_box v) i ->
  md_ptr (pdv_span v) <= pdv_at v i < md_ptr (pdv_span v) + product (map_extents (md_map (pdv_span v))).
Proof.
  intros Hv He Hd Hi. unfold pdv_at, md_at.
  apply local_valid in Hi; [|exact Hv]. cbn [pdv_box lower] in Hi.
  destruct (md_map (pdv_span v)) as [e|e|e s]; cbn [map_extents] in *.
  - destruct (left_bijective e He) as (R & _ & _). specialize (R _ Hi). cbn [map_extents] in R. lia.
  - destruct (right_bijective e He) as (R & _ & _). specialize (R _ Hi). cbn [map_extents] in R. lia.
  - exfalso. eapply Hd. reflexivity.
Qed.

Lemma dense_at_injective v i j :
  view_ok v -> extents_ok (map_extents (md_map (pdv_span v))) ->
  (forall e s, md_map (pdv_span v) <> LayoutStride e s) ->
  in_box (pdv_box v) i -> in_box (pdv_box v) j -> pdv_at v i = pdv_at v j -> i = j.
Proof.
  intros Hv He Hd Hi Hj E. unfold pdv_at, md_at in E.
  pose proof Hi as Hi0. pose proof Hj as Hj0.
  apply local_valid in Hi; [|exact Hv]. apply local_valid in Hj; [|exact Hv].
  cbn [pdv_box lower] in Hi, Hj.
  assert (map2 (fun i o => i - o) i (pdv_origin v) = map2 (fun i o => i - o) j (pdv_origin v)) as E'.
  { destruct (md_map (pdv_span v)) as [e|e|e s]; cbn [map_extents] in *.
    - destruct (left_bijective e He) as (_ & I & _). apply I; [assumption|assumption|]. lia.
    - destruct (right_bijective e He) as (_ & I & _). apply I; [assumption|assumption|]. lia.
    - exfalso. eapply Hd. reflexivity. }
  destruct Hi0 as (L1 & _ & _). destruct Hj0 as (L2 & _ & _). cbn [pdv_box lower] in *.
  clear - E' L1 L2. revert i j E' L1 L2. generalize (pdv_origin v) as l. induction l as [|o l IH];
    intros [|x i] [|y j] E L1 L2; try discriminate; [reflexivity|].
  unfold map2 in *. cbn [combine map fst snd] in E. injection E as E1 E2. f_equal; [lia|].
  apply IH; simpl in *; try lia. exact E2.
Qed.
