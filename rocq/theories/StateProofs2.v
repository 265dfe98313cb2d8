(** Lemmas about views of states. *)
From Coq Require Import List ZArith Lia Bool.
From Verif Require Import ArrayModel ArraySpec ArrayProofs BoxProofs StableDtProofs BoundaryProofs StateModel StateSpec StateProofs.
Import ListNotations.
Local Open Scope Z_scope.

(** ** Positions *)

Lemma map_index_offset e j : length j = length e -> map_index (LayoutLeft e) j = offset e j.
Proof.
  revert j; induction e as [|x e IH]; intros [|y j] H; try discriminate; [reflexivity|].
  rewrite left_index_cons by (simpl in H; lia). cbn [offset]. rewrite IH by (simpl in H; lia). reflexivity.
Qed.

Lemma offset_app a b x y : length x = length a -> offset (a ++ b) (x ++ y) = offset a x + product a * offset b y.
Proof.
  revert x; induction a as [|p a IH]; intros [|q x] H; try discriminate.
  - cbn [app offset product fold_right]. lia.
  - cbn [app offset product fold_right]. rewrite IH by (simpl in H; lia). unfold product. ring.
Qed.

Lemma offset_zeros a n : offset a (repeat 0 n) = 0.
Proof. revert n; induction a as [|x a IH]; intros [|n]; try reflexivity. cbn [repeat offset]. rewrite IH. ring. Qed.

Lemma product_ones k : product (repeat 1 k) = 1.
Proof. induction k as [|k IH]; [reflexivity|]. cbn [repeat product fold_right] in *. unfold product in IH. rewrite IH. reflexivity. Qed.

Lemma map2_sub i o : map2 (fun i o => i - o) i o = map (fun p => fst p - snd p) (combine i o).
Proof. reflexivity. Qed.

(** ** The view of one component *)

(** the view of component [c] of the patch *)
Definition comp_view (ptr : Z) (lo len : list Z) (c : nat) : PatchDataView :=
  mkView (mkMdspan (ptr + Z.of_nat c * product len) (LayoutLeft len)) lo.

Lemma comp_view_at ptr lo len c i :
  length lo = length len -> length i = length len ->
  pdv_at (comp_view ptr lo len c) i = element ptr lo len i c.
Proof.
  intros H1 H2. unfold pdv_at, comp_view, md_at, element. cbn [pdv_span pdv_origin md_ptr md_map].
  rewrite map_index_offset by (rewrite map2_length by congruence; congruence). rewrite map2_sub. lia.
Qed.

Lemma map2_swap (a b : list Z) : map2 (fun e l => l + e) a b = map (fun p => fst p + snd p) (combine b a).
Proof.
  unfold map2. revert b; induction a as [|x a IH]; intros [|y b]; try reflexivity.
  cbn [combine map fst snd]. f_equal. apply IH.
Qed.

Lemma comp_view_box ptr lo len c : pdv_box (comp_view ptr lo len c) = patch_box lo len.
Proof. unfold pdv_box, patch_box, comp_view. cbn [pdv_span pdv_origin md_map map_extents]. rewrite map2_swap. reflexivity. Qed.

Lemma patch_box_rank lo len n : length lo = n -> length len = n -> box_of_rank n (patch_box lo len).
Proof. intros H1 H2. split; cbn [lower upper patch_box]; [assumption|]. rewrite map_length, combine_length. lia. Qed.

(** ** What it means for the views of the variables to show the components of a patch *)

Section Shows.
Variables (rank : nat) (addr : list Z -> nat -> Z) (b : IndexBox).

Definition shows_var (c : nat) (d : depth) (v : vview) : Prop :=
  match d, v with
  | ScalarDepth, ViewScalar p => pdv_box p = b /\ forall i, length i = rank -> pdv_at p i = addr i c
  | VectorDepth n, ViewVector p =>
      view_components rank v = n /\
      forall k, (k < n)%nat -> pdv_box (view_at rank v k) = b /\
        forall i, length i = rank -> pdv_at (view_at rank v k) i = addr i (c + k)%nat
  | _, _ => False
  end.

Fixpoint shows (c : nat) (ds : list depth) (vs : list vview) : Prop :=
  match ds, vs with
  | [], [] => True
  | d :: ds', v :: vs' => shows_var c d v /\ shows (c + depth_value d) ds' vs'
  | _, _ => False
  end.

Lemma shows_var_at c d v k : shows_var c d v -> (k < depth_value d)%nat ->
  pdv_box (view_at rank v k) = b /\ forall i, length i = rank -> pdv_at (view_at rank v k) i = addr i (c + k)%nat.
Proof.
  destruct d as [|n], v as [p|p]; simpl; intros H Hk; try contradiction.
  - replace k with O by lia. rewrite Nat.add_0_r. exact H.
  - destruct H as [_ H]. apply H. exact Hk.
Qed.

Lemma shows_var_components c d v : shows_var c d v -> view_components rank v = depth_value d.
Proof. destruct d as [|n], v as [p|p]; simpl; intros H; try contradiction; [reflexivity|]. apply H. Qed.

(** ** Loading *)

Context {X : Type}.
Variable m : memory X.

Lemma load_var_some c d v i (x : variable X) :
  box_of_rank rank b -> in_box b i -> length i = rank -> shows_var c d v -> of_depth d x ->
  exists x', ofold (fun acc k => obind (load_component m (view_at rank v k) i) (var_assign acc k))
               (seq 0 (var_components x)) x = Some x' /\ of_depth d x' /\
    values [x'] = map (fun k => m (addr i (c + k)%nat)) (seq 0 (depth_value d)).
Proof.
  intros Hb Hi Li Hv Hd.
  assert (forall k, (k < depth_value d)%nat -> load_component m (view_at rank v k) i = Some (m (addr i (c + k)%nat))) as L.
  { intros k Hk. unfold load_component. destruct (shows_var_at c d v k Hv Hk) as [E1 E2].
    rewrite E1, E2 by assumption. rewrite (contains_true rank b i Hb Hi). reflexivity. }
  destruct d as [|n], x as [x|xs]; simpl in Hd; try contradiction.
  - exists (VarScalar (m (addr i (c + 0)%nat))). cbn [var_components seq ofold]. rewrite L by (simpl; lia).
    simpl. repeat split.
  - cbn [depth_value] in *. subst n.
    exists (VarVector (map (fun k => m (addr i (c + k)%nat)) (seq 0 (length xs)))).
    split; [|split; [simpl; rewrite map_length, seq_length; reflexivity|simpl; rewrite app_nil_r; reflexivity]].
    cbn [var_components].
    apply (ofold_fill0 _ (fun l _ => VarVector l) (fun k _ => m (addr i (c + k)%nat))).
    + intros pre y r Hr. rewrite L by lia. cbn [obind var_assign]. rewrite assign_app. reflexivity.
    + reflexivity.
    + rewrite map2_const by reflexivity. reflexivity.
Qed.

Lemma load_some ds (s : state X) i :
  box_of_rank rank b -> in_box b i -> length i = rank -> of_depths ds s -> forall c vs, shows c ds vs ->
  exists s', Load rank m s vs i = Some s' /\ of_depths ds s' /\
    values s' = map (fun k => m (addr i k)) (seq c (total ds)).
Proof.
  intros Hb Hi Li Hs. induction Hs as [|d x ds s Hd _ IH]; intros c [|v vs] Hv; simpl in Hv; try contradiction.
  - exists []. split; [reflexivity|]. split; [constructor|]. reflexivity.
  - destruct Hv as [Hv1 Hv2].
    destruct (load_var_some c d v i x Hb Hi Li Hv1 Hd) as (x' & E1 & D1 & V1).
    destruct (IH _ _ Hv2) as (s' & E2 & D2 & V2).
    exists (x' :: s'). cbn [Load]. rewrite E1. cbn [obind]. rewrite E2. split; [reflexivity|].
    split; [constructor; assumption|].
    change (x' :: s') with ([x'] ++ s'). unfold values in *. rewrite flat_map_app, V1, V2, total_cons, seq_app, map_app.
    f_equal. generalize (depth_value d) as n; clear. intros n. generalize c; induction n as [|n IH]; intros c0; [reflexivity|].
    cbn [seq map]. rewrite Nat.add_0_r. f_equal. rewrite <- IH, <- seq_shift, map_map. apply map_ext. intros a. f_equal. f_equal. lia.
Qed.

Lemma load_none ds (s : state X) i :
  box_of_rank rank b -> ~ in_box b i -> length i = rank -> of_depths ds s -> forall c vs, shows c ds vs ->
  (0 < total ds)%nat -> Load rank m s vs i = None.
Proof.
  intros Hb Hi Li Hs. induction Hs as [|d x ds s Hd _ IH]; intros c [|v vs] Hv Ht; simpl in Hv; try contradiction.
  - unfold total in Ht. simpl in Ht. lia.
  - destruct Hv as [Hv1 Hv2]. cbn [Load]. rewrite total_cons in Ht. rewrite (of_depth_components d) by assumption.
    destruct (depth_value d) as [|n] eqn:En.
    + simpl. erewrite IH; [reflexivity|eassumption|lia].
    + cbn [seq ofold].
      assert (load_component m (view_at rank v 0) i = None) as ->; [|reflexivity].
      unfold load_component. destruct (shows_var_at c d v 0 Hv1 ltac:(lia)) as [E1 _]. rewrite E1.
      destruct (ContainsIndex b i) eqn:E; [|reflexivity].
      apply (contains_index_spec rank b i Hb Li) in E. contradiction.
Qed.

End Shows.

(** ** Writing *)

Definition writes {X} (m : memory X) (l : list (Z * X)) : memory X := fold_left (fun m p => put m (fst p) (snd p)) l m.

Lemma writes_app {X} (m : memory X) l1 l2 : writes m (l1 ++ l2) = writes (writes m l1) l2.
Proof. apply fold_left_app. Qed.

Lemma writes_other {X} (m : memory X) l a : ~ In a (map fst l) -> writes m l a = m a.
Proof.
  revert m; induction l as [|[b x] l IH]; intros m H; [reflexivity|]. cbn [writes fold_left fst snd]. 
  change (writes (put m b x) l a = m a). rewrite IH by (intros H1; apply H; right; exact H1).
  unfold put. destruct (Z.eqb_spec a b) as [->|]; [|reflexivity]. exfalso. apply H. left. reflexivity.
Qed.

Lemma writes_in {X} (m : memory X) l a x :
  (forall y z, In (a, y) l -> In (a, z) l -> y = z) -> In (a, x) l -> writes m l a = x.
Proof.
  revert m. induction l as [|[b y] l IH] using rev_ind; intros m H Hin; [destruct Hin|].
  rewrite writes_app. cbn [writes fold_left fst snd]. unfold put at 1.
  destruct (Z.eqb_spec a b) as [->|Ne].
  - apply (H y x); [|assumption]. apply in_app_iff. right. left. reflexivity.
  - apply IH.
    + intros y1 y2 H1 H2. apply H; apply in_app_iff; left; assumption.
    + apply in_app_iff in Hin as [Hin | [E | []]]; [assumption|congruence].
Qed.

Section Stores.
Variables (rank : nat) (addr : list Z -> nat -> Z) (b : IndexBox).
Context {X : Type}.

Lemma ofold_writes {B} (f : memory X -> B -> option (memory X)) (g : B -> list (Z * X)) l m :
  (forall m k, In k l -> f m k = Some (writes m (g k))) -> ofold f l m = Some (writes m (flat_map g l)).
Proof.
  revert m; induction l as [|k l IH]; intros m H; [reflexivity|]. cbn [ofold flat_map].
  rewrite H by (left; reflexivity). cbn [obind]. rewrite IH by (intros; apply H; right; assumption).
  rewrite writes_app. reflexivity.
Qed.

Lemma flat_map_combine (f : nat -> Z) (xs : list X) d n :
  length xs = n -> flat_map (fun k => [(f k, nth k xs d)]) (seq 0 n) = combine (map f (seq 0 n)) xs.
Proof.
  revert f n; induction xs as [|x xs IH]; intros f n H; simpl in H; subst n; [reflexivity|].
  cbn [length seq flat_map map combine app]. f_equal.
  rewrite <- (seq_shift (length xs)), map_map. rewrite <- (IH (fun k => f (S k))) by reflexivity.
  rewrite !flat_map_concat_map, map_map. reflexivity.
Qed.

Lemma store_var_some c d v i (x : variable X) m :
  box_of_rank rank b -> in_box b i -> length i = rank -> shows_var rank addr b c d v -> of_depth d x ->
  ofold (fun m k =>
               if ContainsIndex (pdv_box (view_at rank v k)) i
               then option_map (put m (pdv_at (view_at rank v k) i)) (var_at x k)
               else None)
               (seq 0 (view_components rank v)) m =
  Some (writes m (combine (map (fun k => addr i (c + k)%nat) (seq 0 (depth_value d))) (values [x]))).
Proof.
  intros Hb Hi Li Hv Hd. rewrite (shows_var_components rank addr b c d) by assumption.
  assert (forall k, (k < depth_value d)%nat -> exists y, var_at x k = Some y /\ nth_error (values [x]) k = Some y) as Hx.
  { intros k Hk. destruct d as [|n], x as [x|xs]; simpl in Hd; try contradiction; cbn [depth_value] in Hk.
    - exists x. replace k with O by lia. split; reflexivity.
    - subst n. simpl. rewrite app_nil_r.
      destruct (nth_error xs k) as [y|] eqn:E; [|apply nth_error_None in E; lia]. exists y. split; reflexivity. }
  assert (length (values [x]) = depth_value d) as Lx.
  { rewrite <- (of_depth_components d x) by assumption. destruct x; simpl; rewrite ?app_nil_r; reflexivity. }
  destruct (values [x]) as [|x0 xs0] eqn:Ex.
  { rewrite <- Lx. reflexivity. }
  rewrite <- Ex in *.
  rewrite (ofold_writes _ (fun k => [(addr i (c + k)%nat, nth k (values [x]) x0)])).
  - rewrite flat_map_combine by assumption. reflexivity.
  - intros m0 k Hk. apply in_seq in Hk. destruct (shows_var_at rank addr b c d v k Hv ltac:(lia)) as [E1 E2].
    rewrite E1, E2 by assumption. rewrite (contains_true rank b i Hb Hi).
    destruct (Hx k ltac:(lia)) as (y & Y1 & Y2). rewrite Y1. simpl option_map. f_equal.
    rewrite (nth_error_nth _ _ x0 Y2). reflexivity.
Qed.

Lemma combine_app {A B} (a a' : list A) (x x' : list B) :
  length a = length x -> combine (a ++ a') (x ++ x') = combine a x ++ combine a' x'.
Proof.
  revert x; induction a as [|p a IH]; intros [|q x] H; try discriminate; [reflexivity|].
  simpl. rewrite IH by (simpl in H; lia). reflexivity.
Qed.

Lemma store_some ds (s : state X) i :
  box_of_rank rank b -> in_box b i -> length i = rank -> of_depths ds s -> forall c vs m, shows rank addr b c ds vs ->
  Store rank m vs s i = Some (writes m (combine (map (addr i) (seq c (total ds))) (values s))).
Proof.
  intros Hb Hi Li Hs. induction Hs as [|d x ds s Hd _ IH]; intros c [|v vs] m Hv; simpl in Hv; try contradiction.
  - reflexivity.
  - destruct Hv as [Hv1 Hv2]. cbn [Store]. rewrite (store_var_some c d v i x m Hb Hi Li Hv1 Hd). cbn [obind].
    rewrite (IH _ _ _ Hv2). f_equal. rewrite <- writes_app. f_equal.
    change (x :: s) with ([x] ++ s). unfold values. rewrite flat_map_app, total_cons, seq_app, map_app, combine_app.
    + f_equal. f_equal. generalize (depth_value d) as n; clear. intros n. generalize c; induction n as [|n IH]; intros c0; [reflexivity|].
      cbn [seq map]. rewrite Nat.add_0_r. f_equal. rewrite <- IH, <- seq_shift, map_map. apply map_ext. intros a. f_equal. lia.
    + rewrite map_length, seq_length, <- (of_depth_components d x) by assumption.
      destruct x; simpl; rewrite ?app_nil_r; reflexivity.
Qed.

Lemma store_none ds (s : state X) i :
  box_of_rank rank b -> ~ in_box b i -> length i = rank -> of_depths ds s -> forall c vs m, shows rank addr b c ds vs ->
  (0 < total ds)%nat -> Store rank m vs s i = None.
Proof.
  intros Hb Hi Li Hs. induction Hs as [|d x ds s Hd _ IH]; intros c [|v vs] m Hv Ht; simpl in Hv; try contradiction.
  - unfold total in Ht. simpl in Ht. lia.
  - destruct Hv as [Hv1 Hv2]. cbn [Store]. rewrite total_cons in Ht.
    rewrite (shows_var_components rank addr b c d v Hv1).
    destruct (depth_value d) as [|n] eqn:En.
    + simpl. eapply IH; [eassumption|lia].
    + cbn [seq ofold]. destruct (shows_var_at rank addr b c d v 0 Hv1 ltac:(lia)) as [E1 _]. rewrite E1.
      destruct (ContainsIndex b i) eqn:E; [|reflexivity].
      apply (contains_index_spec rank b i Hb Li) in E. contradiction.
Qed.

End Stores.

(** ** MakeView shows the patch *)

Section Make.
Variables (rank extra : nat) (ptr : Z) (lo1 lo2 len1 : list Z) (ncomp : Z).
Hypotheses (Hlo1 : length lo1 = rank) (Hlo2 : length lo2 = extra) (Hlen1 : length len1 = rank).

Definition fab := MakePatchDataView ptr (lo1 ++ lo2) (len1 ++ repeat 1 extra) ncomp.

Lemma firstn_exact {A} (a c : list A) n : length a = n -> firstn n (a ++ c) = a.
Proof. intros <-. rewrite firstn_app, Nat.sub_diag, firstn_all, firstn_O, app_nil_r. reflexivity. Qed.

Lemma repeat_add {A} (x : A) n k : repeat x (n + k) = repeat x n ++ repeat x k.
Proof. induction n; simpl; congruence. Qed.

Lemma fab_comp c : md_at (pdv_span fab) (repeat 0 (rank + extra) ++ [Z.of_nat c]) = ptr + Z.of_nat c * product len1.
Proof.
  unfold md_at, fab, MakePatchDataView. cbn [pdv_span md_ptr md_map].
  rewrite map_index_offset by (rewrite !app_length, !repeat_length; simpl; lia).
  rewrite offset_app by (rewrite app_length, !repeat_length; lia).
  rewrite offset_zeros, product_app, product_ones. cbn [offset]. ring.
Qed.

Lemma view_at_dense p n k :
  view_at rank (ViewVector (mkView (mkMdspan p (LayoutLeft (len1 ++ [n]))) (lo1 ++ [0]))) k =
  mkView (mkMdspan (p + Z.of_nat k * product len1) (LayoutLeft len1)) lo1.
Proof.
  unfold view_at. cbn [pdv_span pdv_origin md_map map_extents]. f_equal; [|apply firstn_exact; assumption].
  f_equal.
  - unfold md_at. cbn [md_ptr md_map]. rewrite map_index_offset by (rewrite !app_length, repeat_length; simpl; lia).
    rewrite offset_app by (rewrite repeat_length; lia). rewrite offset_zeros. cbn [offset]. ring.
  - f_equal. change (fun r => nthZ (len1 ++ [n]) r) with (nthZ (len1 ++ [n])).
    rewrite map_nthZ_firstn by (rewrite app_length; simpl; lia). apply firstn_exact. assumption.
Qed.

Lemma make_view_shows ds : forall c,
  shows rank (element ptr lo1 len1) (patch_box lo1 len1) c ds (make_view rank (rank + extra) fab c ds).
Proof.
  induction ds as [|d ds IH]; intros c; [exact I|].
  cbn [make_view]. unfold transform. rewrite fab_comp.
  unfold fab at 1 2 3 4, MakePatchDataView. cbn [pdv_span pdv_origin md_map map_extents].
  rewrite <- !app_assoc. rewrite !firstn_exact by assumption.
  destruct d as [|n]; cbn [fst snd]; (split; [|exact (IH _)]).
  - change (mkView (mkMdspan (ptr + Z.of_nat c * product len1) (LayoutLeft len1)) lo1) with (comp_view ptr lo1 len1 c).
    split; [apply comp_view_box|]. intros i Li. apply comp_view_at; congruence.
  - split.
    + unfold view_components. cbn [pdv_span md_map map_extents]. unfold nthZ. rewrite app_nth2 by lia.
      rewrite Hlen1, Nat.sub_diag. simpl. lia.
    + intros k Hk. rewrite view_at_dense.
      replace (ptr + Z.of_nat c * product len1 + Z.of_nat k * product len1)
        with (ptr + Z.of_nat (c + k) * product len1) by (rewrite Nat2Z.inj_add; ring).
      change (mkView (mkMdspan (ptr + Z.of_nat (c + k) * product len1) (LayoutLeft len1)) lo1) with (comp_view ptr lo1 len1 (c + k)).
      split; [apply comp_view_box|]. intros i Li. apply comp_view_at; congruence.
Qed.

End Make.

(** ** Sub views show the patch, too *)

(** the shape of the views which are made by [MakeView] and [SubviewState] *)
Definition shaped (rank : nat) (v : vview) : Prop :=
  match v with
  | ViewScalar p => view_ok p /\ length (pdv_origin p) = rank
  | ViewVector p => view_ok p /\ length (pdv_origin p) = S rank /\ nthZ (pdv_origin p) rank = 0 /\
      leading_strides_kept (md_map (pdv_span p)) /\ 0 <= nthZ (map_extents (md_map (pdv_span p))) rank
  end.

Lemma view_at_slice rank p k : view_ok p -> length (pdv_origin p) = S rank ->
  view_at rank (ViewVector p) k = SliceLast p (Z.of_nat k).
Proof.
  intros Hv Ho. unfold view_at, SliceLast. unfold view_ok in Hv.
  replace (length (map_extents (md_map (pdv_span p))) - 1)%nat with rank by lia.
  destruct (md_map (pdv_span p)); reflexivity.
Qed.

Lemma subview_strides v b : leading_strides_kept (md_map (pdv_span (Subview v b))).
Proof.
  unfold Subview, subspan. cbn [pdv_span md_map leading_strides_kept].
  unfold make_slice_array. rewrite map_length, make_slice_extents_length. apply range_indices_length.
Qed.

Lemma pdv_upper p rank : view_ok p -> length (pdv_origin p) = S rank ->
  nthZ (upper (pdv_box p)) rank = nthZ (pdv_origin p) rank + nthZ (map_extents (md_map (pdv_span p))) rank.
Proof.
  intros Hv Ho. unfold view_ok in Hv. unfold pdv_box. cbn [upper]. unfold nthZ at 1. rewrite nth_map2 by lia. reflexivity.
Qed.

Lemma embed_rank rank b l u : box_of_rank rank b -> box_of_rank (S rank) (Embed b (l, u)).
Proof. intros [H1 H2]. split; unfold Embed; cbn [lower upper fst snd]; rewrite app_length; simpl; lia. Qed.

Lemma nth_last {A} (l : list A) x d n : length l = n -> nth n (l ++ [x]) d = x.
Proof. intros <-. rewrite app_nth2 by lia. rewrite Nat.sub_diag. reflexivity. Qed.

Lemma map2_removelast (f : Z -> Z -> Z) a b x y : length a = length b ->
  map2 f (a ++ [x]) (b ++ [y]) = map2 f a b ++ [f x y].
Proof. apply map2_app. Qed.

Lemma subview_shows rank addr b0 b ds : box_of_rank rank b ->
  (forall r, (r < rank)%nat -> nth r (lower b) 0 < nth r (upper b) 0) ->
  forall c vs, Forall (shaped rank) vs -> shows rank addr b0 c ds vs ->
  (forall d, In d ds -> d <> VectorDepth 0) ->
  shows rank addr b c ds (SubviewState rank vs b) /\ Forall (shaped rank) (SubviewState rank vs b).
Proof.
  intros Hb Hne. induction ds as [|d ds IH]; intros c [|v vs] Hsh Hv Hds; simpl in Hv; try contradiction.
  { split; [exact I|constructor]. }
  destruct Hv as [Hv1 Hv2]. inversion Hsh as [|? ? S1 S2]; subst.
  destruct (IH _ _ S2 Hv2 (fun d0 H0 => Hds d0 (or_intror H0))) as [IH1 IH2].
  cbn [SubviewState map].
  assert (shows_var rank addr b c d (match v with
                | ViewScalar p => ViewScalar (Subview p b)
                | ViewVector p =>
                    ViewVector (Subview p (Embed b (nthZ (lower (pdv_box p)) rank, nthZ (upper (pdv_box p)) rank)))
                end) /\ shaped rank (match v with
                | ViewScalar p => ViewScalar (Subview p b)
                | ViewVector p =>
                    ViewVector (Subview p (Embed b (nthZ (lower (pdv_box p)) rank, nthZ (upper (pdv_box p)) rank)))
                end)) as [G1 G2].
  2:{ split; [split; assumption|]. constructor; assumption. }
  destruct d as [|n], v as [p|p]; cbn [shows_var] in Hv1; try contradiction.
  - destruct S1 as [V1 V2]. split.
    + split; [apply subview_box; [assumption|rewrite V2; assumption|rewrite V2; assumption]|].
      intros i Li. rewrite subview_at; [apply Hv1; assumption|assumption|rewrite V2; assumption|congruence].
    + split; [apply subview_ok; [assumption|rewrite V2; assumption]|]. cbn [Subview pdv_origin]. apply Hb.
  - destruct S1 as (V1 & V2 & V3 & V4 & V5). destruct Hv1 as [C1 C2].
    cbn [pdv_box lower] in *. fold (pdv_box p).
    assert (nthZ (upper (pdv_box p)) rank = nthZ (map_extents (md_map (pdv_span p))) rank) as EU
      by (rewrite pdv_upper by assumption; rewrite V3; lia).
    rewrite V3, EU.
    set (n' := nthZ (map_extents (md_map (pdv_span p))) rank) in *.
    change (Z.to_nat n' = n) in C1.
    set (q := Subview p (Embed b (0, n'))).
    assert (0 < n') as Hn'.
    { assert (n <> O) by (intros ->; apply (Hds (VectorDepth 0) (or_introl eq_refl)); reflexivity).
      lia. }
    pose proof (embed_rank rank b 0 n' Hb) as Hr. destruct Hb as [B1 B2].
    assert (view_ok q) as Q1 by (apply subview_ok; [assumption|rewrite V2; assumption]).
    assert (length (pdv_origin q) = S rank) as Q2.
    { unfold q, Subview, Embed. cbn [pdv_origin lower fst]. rewrite app_length. simpl. lia. }
    assert (nthZ (pdv_origin q) rank = 0) as Q3.
    { unfold q, Subview, Embed. cbn [pdv_origin lower fst]. unfold nthZ. apply nth_last. assumption. }
    assert (map_extents (md_map (pdv_span q)) = map2 (fun lo up => up - lo) (lower b) (upper b) ++ [n']) as Q4.
    { unfold q. rewrite subview_extents.
      - unfold Embed. cbn [lower upper fst snd]. rewrite map2_app by congruence. rewrite Z.sub_0_r. reflexivity.
      - assumption.
      - rewrite V2. assumption.
      - rewrite V2. intros r Hr'. unfold Embed. cbn [lower upper fst snd].
        destruct (Nat.eq_dec r rank) as [->|Nr].
        + rewrite !nth_last by assumption. assumption.
        + rewrite !app_nth1 by lia. apply Hne. lia. }
    assert (nthZ (map_extents (md_map (pdv_span q))) rank = n') as Q5.
    { rewrite Q4. unfold nthZ. apply nth_last. rewrite map2_length by congruence. assumption. }
    split; [|repeat split; try assumption; [apply subview_strides|rewrite Q5; lia]].
    split; [unfold view_components; fold q; rewrite Q5; exact C1|].
    intros k Hk. fold q. rewrite view_at_slice by assumption. split.
    + unfold pdv_box, SliceLast. cbn [pdv_span pdv_origin].
      replace (length (map_extents (md_map (pdv_span q))) - 1)%nat with rank by (unfold view_ok in Q1; lia).
      assert (firstn rank (pdv_origin q) = lower b) as ->.
      { unfold q, Subview, Embed. cbn [pdv_origin lower fst]. apply firstn_exact. assumption. }
      assert (map_extents (md_map (mkMdspan (md_at (pdv_span q) (repeat 0 rank ++ [Z.of_nat k]))
           match md_map (pdv_span q) with
           | LayoutLeft _ => LayoutLeft (map (fun k0 => nthZ (map_extents (md_map (pdv_span q))) k0) (seq 0 rank))
           | LayoutRight _ => LayoutRight (map (fun k0 => nthZ (map_extents (md_map (pdv_span q))) k0) (seq 0 rank))
           | LayoutStride _ _ => LayoutStride (map (fun k0 => nthZ (map_extents (md_map (pdv_span q))) k0) (seq 0 rank))
                (map (fun k0 => map_stride (md_map (pdv_span q)) k0) (seq 0 rank))
           end)) = map2 (fun lo up => up - lo) (lower b) (upper b)) as ->.
      { transitivity (map (nthZ (map_extents (md_map (pdv_span q)))) (seq 0 rank)).
        - cbn [md_map]. destruct (md_map (pdv_span q)); reflexivity.
        - rewrite Q4. rewrite map_nthZ_firstn by (rewrite app_length, map2_length by congruence; lia).
          apply firstn_exact. rewrite map2_length by congruence. assumption. }
      rewrite map2_sub_add by congruence. destruct b; reflexivity.
    + intros i Li.
      rewrite (slice_last_at q (Z.of_nat k) i rank); [|assumption|apply subview_strides|assumption|assumption|assumption].
      unfold q. rewrite subview_at; [|assumption|rewrite V2; assumption|rewrite app_length; simpl; lia].
      destruct (C2 k Hk) as [_ C3]. rewrite <- C3 by assumption. rewrite view_at_slice by assumption.
      symmetry. apply (slice_last_at p (Z.of_nat k) i rank); assumption.
Qed.

(** ** Distinct components of distinct cells are distinct elements *)

Lemma offset_bounds e j : valid_index e j -> 0 <= offset e j < product e.
Proof.
  revert j; induction e as [|x e IH]; intros [|y j] [Hl H]; try discriminate.
  - unfold product. simpl. lia.
  - cbn [offset product fold_right].
    assert (0 <= offset e j < product e) as B.
    { apply IH. split; [simpl in Hl; lia|]. intros r Hr. apply (H (S r)). simpl. lia. }
    assert (0 <= y < x) as Y by (apply (H O); simpl; lia). unfold product in *. nia.
Qed.

Lemma offset_inj e i j : valid_index e i -> valid_index e j -> offset e i = offset e j -> i = j.
Proof.
  revert i j; induction e as [|x e IH]; intros [|y i] [|z j] [Hl H] [Kl K] E; try discriminate; [reflexivity|].
  cbn [offset] in E.
  assert (0 <= y < x) as Y by (apply (H O); simpl; lia).
  assert (0 <= z < x) as Z by (apply (K O); simpl; lia).
  assert (offset e i = offset e j) as E' by nia.
  assert (y = z) by (rewrite E' in E; lia). subst z. f_equal. apply IH.
  - split; [simpl in Hl; lia|]. intros r Hr. apply (H (S r)). simpl. lia.
  - split; [simpl in Kl; lia|]. intros r Hr. apply (K (S r)). simpl. lia.
  - exact E'.
Qed.

Lemma patch_local lo len i : length lo = length len -> in_box (patch_box lo len) i ->
  valid_index len (map (fun p => fst p - snd p) (combine i lo)).
Proof.
  intros Hl (H1 & H2 & H). unfold patch_box in *. cbn [lower upper] in *.
  assert (length (map (fun p => fst p - snd p) (combine i lo)) = length len) as E
    by (rewrite map_length, combine_length; lia).
  split; [assumption|]. intros r Hr. specialize (H r ltac:(lia)).
  change (map (fun p => fst p - snd p) (combine i lo)) with (map2 Z.sub i lo).
  change (map (fun p => fst p + snd p) (combine lo len)) with (map2 Z.add lo len) in H.
  rewrite nth_map2 in * by lia. lia.
Qed.

Lemma sub_inj (lo i j : list Z) : length i = length lo -> length j = length lo ->
  map (fun p => fst p - snd p) (combine i lo) = map (fun p => fst p - snd p) (combine j lo) -> i = j.
Proof.
  revert i j; induction lo as [|l lo IH]; intros [|x i] [|y j] H1 H2 E; try discriminate; [reflexivity|].
  cbn [combine map fst snd] in E. injection E as E1 E2. f_equal; [lia|]. apply IH; simpl in *; try lia; assumption.
Qed.

Lemma element_inj ptr lo len i j c k :
  length lo = length len -> in_box (patch_box lo len) i -> in_box (patch_box lo len) j ->
  element ptr lo len i c = element ptr lo len j k -> i = j /\ c = k.
Proof.
  intros Hl Hi Hj E. unfold element in E.
  pose proof (patch_local lo len i Hl Hi) as Vi. pose proof (patch_local lo len j Hl Hj) as Vj.
  pose proof (offset_bounds _ _ Vi) as Bi. pose proof (offset_bounds _ _ Vj) as Bj.
  assert (c = k) as -> by nia.
  split; [|reflexivity]. destruct Hi as (L1 & _ & _), Hj as (L2 & _ & _). cbn [lower patch_box] in *.
  apply (sub_inj lo); [assumption|assumption|]. apply (offset_inj len); [assumption|assumption|]. lia.
Qed.
