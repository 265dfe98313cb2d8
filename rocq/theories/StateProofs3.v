(** Lemmas about pointers to cells and packs of cells. *)
From Coq Require Import List ZArith Lia Bool.
From Verif Require Import ArrayModel ArraySpec ArrayProofs BoxProofs StableDtProofs BoundaryProofs StateModel StateSpec StateProofs StateProofs2.
Import ListNotations.
Local Open Scope Z_scope.

(** the pointers to the components of the cell [i], starting with component [c] *)
Fixpoint cell_pointers (addr : list Z -> nat -> Z) (stride : Z) (i : list Z) (c : nat) (ds : list depth) : list vpointer :=
  match ds with
  | [] => []
  | ScalarDepth :: r => PtrScalar (addr i c) :: cell_pointers addr stride i (c + 1) r
  | VectorDepth n :: r => PtrVector (addr i c) stride :: cell_pointers addr stride i (c + n) r
  end.

Lemma element_component ptr lo len i c k : element ptr lo len i (c + k) = element ptr lo len i c + Z.of_nat k * product len.
Proof. unfold element. rewrite Nat2Z.inj_add. ring. Qed.

Lemma element_shift ptr lo len i j d c : length lo = length len -> length i = length len -> (0 < length i)%nat ->
  shifted i j 0 d -> element ptr lo len j c = element ptr lo len i c + d.
Proof.
  intros H1 H2 H3 (L & E0 & Es). destruct i as [|x i]; [simpl in H3; lia|]. destruct j as [|y j]; [discriminate|].
  assert (j = i) as ->. { apply (nth_ext _ _ 0 0); [simpl in L; lia|]. intros n _. apply (Es (S n)). lia. }
  simpl in E0. subst y. destruct lo as [|l lo]; [simpl in *; lia|]. destruct len as [|e len]; [discriminate|].
  unfold element. cbn [combine map fst snd offset]. lia.
Qed.

Lemma advance_pointers ptr lo len i j d ds : length lo = length len -> length i = length len -> (0 < length i)%nat ->
  shifted i j 0 d -> forall c,
  Advance (cell_pointers (element ptr lo len) (product len) i c ds) d =
  cell_pointers (element ptr lo len) (product len) j c ds.
Proof.
  intros H1 H2 H3 Hs. induction ds as [|[|n] ds IH]; intros c; [reflexivity| |];
    cbn [cell_pointers Advance map]; f_equal; try apply IH; rewrite (element_shift ptr lo len i j d c); auto.
Qed.

Lemma zeros_sub (o : list Z) : map2 (fun i o => i - o) o o = repeat 0 (length o).
Proof. unfold map2. induction o as [|x o IH]; [reflexivity|]. cbn [combine map fst snd length repeat]. rewrite IH. f_equal. lia. Qed.

Lemma map_index_zeros m : map_index m (repeat 0 (length (map_extents m))) = 0.
Proof.
  rewrite map_index_dot by apply repeat_length. generalize (strides_of m) as s. generalize (length (map_extents m)) as n.
  intros n s; revert n; induction s as [|x s IH]; intros [|n]; try reflexivity. cbn [repeat dot]. rewrite IH. ring.
Qed.

Lemma pdv_at_origin p : view_ok p -> pdv_at p (pdv_origin p) = md_ptr (pdv_span p).
Proof. intros H. unfold pdv_at, md_at. rewrite zeros_sub, H, map_index_zeros. lia. Qed.

Lemma pdv_at_shifted p i j r d : view_ok p -> length i = length (pdv_origin p) -> (r < length i)%nat -> shifted i j r d ->
  pdv_at p j = pdv_at p i + map_stride (md_map (pdv_span p)) r * d.
Proof.
  intros Hv Hi Hr Hs. unfold pdv_at, md_at. unfold view_ok in Hv.
  assert (length (map2 (fun i o => i - o) i (pdv_origin p)) = length i) as L1 by (apply map2_length; assumption).
  assert (length (map2 (fun i o => i - o) j (pdv_origin p)) = length i) as L2
    by (destruct Hs as [L _]; rewrite map2_length; congruence).
  rewrite (map_index_shifted (md_map (pdv_span p)) (map2 (fun i o => i - o) i (pdv_origin p))
    (map2 (fun i o => i - o) j (pdv_origin p)) r d); [lia|congruence| |congruence].
  destruct Hs as (L & E & Es). split; [congruence|]. split.
  - rewrite !nth_map2 by lia. lia.
  - intros k Hk. destruct (Nat.lt_ge_cases k (length i)) as [Lk|Lk].
    + rewrite !nth_map2 by lia. rewrite Es by assumption. reflexivity.
    + rewrite !nth_overflow by lia. reflexivity.
Qed.

Lemma shifted_last i a b n : length i = n -> shifted (i ++ [a]) (i ++ [b]) n (b - a).
Proof.
  intros H. split; [rewrite !app_length; reflexivity|]. split; [rewrite !nth_last by assumption; lia|].
  intros k Hk. destruct (Nat.lt_ge_cases k n) as [L|L].
  - rewrite !app_nth1 by lia. reflexivity.
  - rewrite !nth_overflow; [reflexivity| |]; rewrite app_length; simpl; lia.
Qed.

(** the pointers of [Begin] *)
Definition begins (rank : nat) (stride : Z) (addr : list Z -> nat -> Z) (i : list Z) (c : nat) (d : depth) (v : vview) : Prop :=
  match d, v with
  | ScalarDepth, ViewScalar p => md_ptr (pdv_span p) = addr i c
  | VectorDepth _, ViewVector p => md_ptr (pdv_span p) = addr i c /\ map_stride (md_map (pdv_span p)) rank = stride
  | _, _ => False
  end.

Lemma begin_pointers rank stride addr i ds : forall c vs,
  (fix all c ds vs := match ds, vs with
    | [], [] => True
    | d :: ds', v :: vs' => begins rank stride addr i c d v /\ all (c + depth_value d)%nat ds' vs'
    | _, _ => False end) c ds vs ->
  Begin rank vs = cell_pointers addr stride i c ds.
Proof.
  induction ds as [|d ds IH]; intros c [|v vs] H; try contradiction; [reflexivity|].
  destruct H as [H1 H2]. cbn [Begin map]. specialize (IH _ _ H2). unfold Begin in IH. rewrite IH.
  destruct d as [|n], v as [p|p]; simpl in H1; try contradiction; cbn [cell_pointers depth_value].
  - unfold md_span. cbn [fst]. rewrite H1. reflexivity.
  - destruct H1 as [E1 E2]. unfold md_span. cbn [fst]. rewrite E1, E2. reflexivity.
Qed.

Section MakeBegin.
Variables (rank extra : nat) (ptr : Z) (lo1 lo2 len1 : list Z) (ncomp : Z).
Hypotheses (Hlo1 : length lo1 = rank) (Hlo2 : length lo2 = extra) (Hlen1 : length len1 = rank).

Notation addr := (element ptr lo1 len1).
Notation fabv := (fab extra ptr lo1 lo2 len1 ncomp).

Lemma element_lower c : addr lo1 c = ptr + Z.of_nat c * product len1.
Proof.
  unfold element. change (map (fun p => fst p - snd p) (combine lo1 lo1)) with (map2 (fun i o => i - o) lo1 lo1).
  rewrite (zeros_sub lo1), offset_zeros. lia.
Qed.

Lemma make_view_cons ds d c :
  make_view rank (rank + extra) fabv c (d :: ds) =
  (match d with
   | ScalarDepth => ViewScalar (comp_view ptr lo1 len1 c)
   | VectorDepth n => ViewVector (mkView (mkMdspan (ptr + Z.of_nat c * product len1) (LayoutLeft (len1 ++ [Z.of_nat n]))) (lo1 ++ [0]))
   end) :: make_view rank (rank + extra) fabv (c + depth_value d) ds.
Proof.
  cbn [make_view]. unfold transform. rewrite fab_comp by assumption.
  unfold fab at 1 2 3 4, MakePatchDataView. cbn [pdv_span pdv_origin md_map map_extents].
  rewrite <- !app_assoc. rewrite !firstn_exact by assumption.
  destruct d as [|n]; reflexivity.
Qed.

Lemma make_view_shaped ds c : Forall (shaped rank) (make_view rank (rank + extra) fabv c ds).
Proof.
  revert c; induction ds as [|d ds IH]; intros c; [constructor|].
  rewrite make_view_cons. constructor; [|apply IH]. destruct d as [|n]; unfold shaped, view_ok, comp_view;
    cbn [pdv_span pdv_origin md_map map_extents].
  - split; congruence.
  - split; [rewrite !app_length; simpl; lia|]. split; [rewrite app_length; simpl; lia|].
    split; [unfold nthZ; apply nth_last; assumption|]. split; [exact I|].
    unfold nthZ. rewrite nth_last by assumption. lia.
Qed.

Lemma stride_last n : map_stride (LayoutLeft (len1 ++ [n])) rank = product len1.
Proof.
  pose proof (map_index_shifted (LayoutLeft (len1 ++ [n])) (repeat 0 rank ++ [0]) (repeat 0 rank ++ [1]) rank 1) as H.
  rewrite !map_index_offset in H by (rewrite !app_length, repeat_length; simpl; lia).
  rewrite !offset_app in H by (rewrite repeat_length; lia). rewrite !offset_zeros in H. cbn [offset] in H.
  cbn [map_extents] in H. rewrite !app_length, repeat_length in H. cbn [length] in H.
  specialize (H ltac:(lia) (shifted_last (repeat 0 rank) 0 1 rank (repeat_length _ _)) ltac:(lia)). lia.
Qed.

Lemma make_view_begin ds c :
  Begin rank (make_view rank (rank + extra) fabv c ds) = cell_pointers addr (product len1) lo1 c ds.
Proof.
  revert c; induction ds as [|d ds IH]; intros c; [reflexivity|].
  rewrite make_view_cons. cbn [Begin map]. specialize (IH (c + depth_value d)%nat). unfold Begin in IH. rewrite IH.
  destruct d as [|n]; cbn [cell_pointers depth_value]; unfold md_span, comp_view; cbn [fst pdv_span md_ptr md_map];
    rewrite <- element_lower; [reflexivity|]. rewrite stride_last. reflexivity.
Qed.

Lemma subview_begin b ds c :
  box_of_rank rank b ->
  Begin rank (SubviewState rank (make_view rank (rank + extra) fabv c ds) b) =
  cell_pointers addr (product len1) (lower b) c ds.
Proof.
  intros Hb. revert c; induction ds as [|d ds IH]; intros c; [reflexivity|].
  rewrite make_view_cons. cbn [SubviewState Begin map]. specialize (IH (c + depth_value d)%nat).
  unfold Begin, SubviewState in IH. rewrite IH.
  destruct d as [|n]; cbn [cell_pointers depth_value]; unfold md_span; cbn [fst].
  - f_equal. f_equal. assert (view_ok (comp_view ptr lo1 len1 c)) as V by (unfold view_ok, comp_view; cbn; congruence).
    assert (length (pdv_origin (comp_view ptr lo1 len1 c)) = rank) as L by exact Hlo1.
    rewrite <- pdv_at_origin by (apply subview_ok; [assumption|rewrite L; assumption]).
    cbn [Subview pdv_origin]. change (lower b) with (pdv_origin (Subview (comp_view ptr lo1 len1 c) b)) at 1.
    rewrite subview_at; [|assumption|rewrite L; assumption|cbn [Subview pdv_origin]; rewrite L; apply Hb].
    cbn [Subview pdv_origin]. rewrite comp_view_at; [reflexivity|congruence|destruct Hb; congruence].
  - set (p := mkView (mkMdspan (ptr + Z.of_nat c * product len1) (LayoutLeft (len1 ++ [Z.of_nat n]))) (lo1 ++ [0])).
    set (l := nthZ (lower (pdv_box p)) rank). set (u := nthZ (upper (pdv_box p)) rank).
    assert (view_ok p) as V by (unfold view_ok, p; cbn [pdv_span pdv_origin md_map map_extents]; rewrite !app_length; simpl; lia).
    assert (length (pdv_origin p) = S rank) as L by (unfold p; cbn [pdv_origin]; rewrite app_length; simpl; lia).
    pose proof (embed_rank rank b l u Hb) as Hr.
    assert (view_ok (Subview p (Embed b (l, u)))) as Vq by (apply subview_ok; [assumption|rewrite L; assumption]).
    assert (l = 0) as El.
    { unfold l, p, pdv_box. cbn [lower pdv_origin]. unfold nthZ. apply nth_last. assumption. }
    assert (forall k, pdv_at (Subview p (Embed b (l, u))) (lower b ++ [k]) = addr (lower b) c + k * product len1) as At.
    { intros k. rewrite subview_at; [|assumption|rewrite L; assumption|rewrite app_length, L; simpl; destruct Hb; lia].
      unfold pdv_at, p, md_at. cbn [pdv_span pdv_origin md_ptr md_map]. rewrite map2_app by (destruct Hb; congruence).
      assert (length (map2 (fun i o => i - o) (lower b) lo1) = rank) as L1 by (rewrite map2_length; destruct Hb; congruence).
      rewrite map_index_offset by (rewrite !app_length; simpl; lia).
      rewrite offset_app by congruence. cbn [offset]. unfold element. rewrite map2_sub. ring. }
    assert (pdv_origin (Subview p (Embed b (l, u))) = lower b ++ [l]) as Oq by reflexivity.
    change (Embed b (nthZ (lower (pdv_box p)) rank, nthZ (upper (pdv_box p)) rank)) with (Embed b (l, u)).
    clearbody l u. set (q := Subview p (Embed b (l, u))) in *. clearbody q.
    assert (md_ptr (pdv_span q) = addr (lower b) c) as E1.
    { rewrite <- pdv_at_origin by assumption. rewrite Oq, El, At. lia. }
    assert (map_stride (md_map (pdv_span q)) rank = product len1) as E2.
    { assert (length (lower b ++ [0]) = length (pdv_origin q)) as A1 by (rewrite Oq, !app_length; reflexivity).
      assert (rank < length (lower b ++ [0%Z]))%nat as A2 by (rewrite app_length; simpl; destruct Hb; lia).
      pose proof (pdv_at_shifted q _ _ rank (1 - 0) Vq A1 A2 (shifted_last (lower b) 0 1 rank (proj1 Hb))) as H.
      rewrite !At in H. lia. }
    rewrite E1, E2. reflexivity.
Qed.

End MakeBegin.

(** ** Loading through pointers *)

Section Pointers.
Variables (addr : list Z -> nat -> Z) (stride : Z) (i : list Z).
Hypothesis Hstride : forall c k, addr i (c + k)%nat = addr i c + Z.of_nat k * stride.
Context {X : Type}.
Variable m : memory X.

Lemma load_pointer_some ds (s : state X) : of_depths ds s -> forall c,
  exists s', LoadPointer m s (cell_pointers addr stride i c ds) = Some s' /\ of_depths ds s' /\
    values s' = map (fun k => m (addr i k)) (seq c (total ds)).
Proof.
  induction 1 as [|d x ds s Hd _ IH]; intros c.
  - exists []. split; [reflexivity|]. split; [constructor|reflexivity].
  - destruct d as [|n], x as [x|xs]; simpl in Hd; try contradiction.
    + destruct (IH (c + 1)%nat) as (s' & E & D & V). exists (VarScalar (m (addr i c)) :: s').
      cbn [cell_pointers LoadPointer load_pointer_variable obind]. rewrite E. split; [reflexivity|].
      split; [constructor; [exact I|assumption]|]. rewrite values_cons, V, total_cons. cbn [depth_value].
      rewrite seq_app, map_app. reflexivity.
    + destruct (IH (c + n)%nat) as (s' & E & D & V).
      exists (VarVector (map (fun k => m (addr i (c + k)%nat)) (seq 0 n)) :: s').
      cbn [cell_pointers LoadPointer load_pointer_variable]. subst n.
      rewrite (ofold_fill0 _ (fun l k => (l, addr i c + Z.of_nat k * stride)) (fun k _ => m (addr i (c + k)%nat)) xs _
        (map (fun k => m (addr i (c + k)%nat)) (seq 0 (length xs)), addr i c + Z.of_nat (length xs) * stride)).
      * cbn [option_map fst obind]. rewrite E. split; [reflexivity|].
        split; [constructor; [simpl; rewrite map_length, seq_length; reflexivity|assumption]|].
        rewrite values_cons, V, total_cons. cbn [depth_value]. rewrite seq_app, map_app. f_equal.
        generalize (length xs) as n; clear. intros n. generalize c; induction n as [|n IH]; intros c0; [reflexivity|].
        cbn [seq map]. rewrite Nat.add_0_r. f_equal. rewrite <- IH, <- seq_shift, map_map. apply map_ext. intros a. f_equal. f_equal. lia.
      * intros pre y r Hr. cbn [fst snd]. rewrite assign_app. cbn [obind]. rewrite Hstride.
        f_equal. f_equal. lia.
      * rewrite Z.mul_0_l, Z.add_0_r. reflexivity.
      * rewrite map2_const by reflexivity. reflexivity.
Qed.

(** ** Packs *)

Definition new_lanes (l : list X) (a : Z) (n : nat) : list X := map (fun j => m (a + Z.of_nat j)) (seq 0 n) ++ skipn n l.

Lemma load_lanes_some l a n : (n <= length l)%nat -> load_lanes m l a n = Some (new_lanes l a n).
Proof.
  intros H. unfold load_lanes.
  assert (length (firstn n l) = n) as L by (rewrite firstn_length; lia).
  rewrite <- (firstn_skipn n l) at 1. rewrite <- L at 1.
  apply (ofold_fill0 _ (fun l0 _ => l0 ++ skipn n l) (fun j _ => m (a + Z.of_nat j)) (firstn n l)).
  - intros pre x r Hr. rewrite <- !app_assoc. cbn [app]. apply assign_app.
  - reflexivity.
  - rewrite map2_const by reflexivity. rewrite L. reflexivity.
Qed.

Lemma load_n_some ds (s : pack_state X) w n : (n <= w)%nat -> of_depths ds s -> width w s -> forall c,
  exists s', LoadN m s (cell_pointers addr stride i c ds) n = Some s' /\ of_depths ds s' /\
    values s' = map2 (fun k l => new_lanes l (addr i k) n) (seq c (total ds)) (values s).
Proof.
  intros Hn Hs. induction Hs as [|d x ds s Hd _ IH]; intros Hw c.
  - exists []. split; [reflexivity|]. split; [constructor|reflexivity].
  - unfold width in Hw. rewrite values_cons in Hw. apply Forall_app in Hw as [W1 W2]. specialize (IH W2).
    destruct d as [|q], x as [x|xs]; simpl in Hd; try contradiction.
    + destruct (IH (c + 1)%nat) as (s' & E & D & V). exists (VarScalar (new_lanes x (addr i c) n) :: s').
      inversion W1; subst.
      cbn [cell_pointers LoadN load_n_variable]. rewrite load_lanes_some by assumption. cbn [option_map obind]. rewrite E.
      split; [reflexivity|]. split; [constructor; [exact I|assumption]|].
      rewrite !values_cons, V, total_cons. cbn [depth_value]. rewrite seq_app. cbn [seq app]. reflexivity.
    + destruct (IH (c + q)%nat) as (s' & E & D & V).
      exists (VarVector (map2 (fun k l => new_lanes l (addr i (c + k)%nat) n) (seq 0 q) xs) :: s').
      cbn [cell_pointers LoadN load_n_variable]. subst q.
      rewrite (ofold_fill _ (fun l k => (l, addr i c + Z.of_nat k * stride)) (fun k l => new_lanes l (addr i (c + k)%nat) n) xs _
        (map2 (fun k l => new_lanes l (addr i (c + k)%nat) n) (seq 0 (length xs)) xs, addr i c + Z.of_nat (length xs) * stride)).
      * cbn [option_map fst obind]. rewrite E. split; [reflexivity|].
        split; [constructor; [simpl; unfold map2; rewrite map_length, combine_length, seq_length; lia|assumption]|].
        rewrite !values_cons, V, total_cons. cbn [depth_value]. rewrite seq_app.
        unfold map2. rewrite combine_app by apply seq_length. rewrite map_app. f_equal.
        generalize c; clear. induction xs as [|y xs IH]; intros c; [reflexivity|].
        cbn [length seq combine map fst snd]. rewrite Nat.add_0_r. f_equal. rewrite <- (IH (S c)).
        rewrite <- seq_shift. generalize 0%nat. clear IH. induction xs as [|z xs IHx]; intros q; [reflexivity|].
        cbn [length seq combine map fst snd]. rewrite IHx. f_equal. f_equal. f_equal. lia.
      * intros pre y r Hr Hy. cbn [fst snd]. rewrite nth_error_app2, Nat.sub_diag by lia. cbn [nth_error obind].
        rewrite load_lanes_some.
        2:{ rewrite Forall_forall in W1. rewrite (W1 y); [assumption|]. eapply nth_error_In. eassumption. }
        cbn [obind]. rewrite assign_app. cbn [obind]. rewrite Hstride. f_equal. f_equal. lia.
      * rewrite Z.mul_0_l, Z.add_0_r. reflexivity.
      * reflexivity.
Qed.

(** the elements written for one component *)
Definition lane_writes (n : nat) (a : Z) (l : list X) : list (Z * X) :=
  combine (map (fun j => a + Z.of_nat j) (seq 0 n)) (firstn n l).

Lemma store_lanes_some m0 l a n : (n <= length l)%nat -> store_lanes m0 l a n = Some (writes m0 (lane_writes n a l)).
Proof.
  intros H. unfold store_lanes, lane_writes.
  destruct l as [|x0 l0] eqn:El; [replace n with O by (simpl in H; lia); reflexivity|]. rewrite <- El in *.
  assert (length (firstn n l) = n) as L by (rewrite firstn_length; lia).
  rewrite (ofold_writes _ (fun j => [(a + Z.of_nat j, nth j (firstn n l) x0)])).
  - rewrite flat_map_combine by assumption. reflexivity.
  - intros m1 j Hj. apply in_seq in Hj. rewrite (nth_error_nth' l x0) by lia. cbn [option_map].
    f_equal. cbn [writes fold_left fst snd]. f_equal. rewrite <- (firstn_skipn n l) at 1. rewrite app_nth1 by lia. reflexivity.
Qed.

Lemma store_n_some ds (s : pack_state X) w n : (n <= w)%nat -> of_depths ds s -> width w s -> forall c m0,
  StoreN m0 (cell_pointers addr stride i c ds) s n =
  Some (writes m0 (concat (map2 (fun k l => lane_writes n (addr i k) l) (seq c (total ds)) (values s)))).
Proof.
  intros Hn Hs. induction Hs as [|d x ds s Hd _ IH]; intros Hw c m0.
  - reflexivity.
  - unfold width in Hw. rewrite values_cons in Hw. apply Forall_app in Hw as [W1 W2]. specialize (IH W2).
    destruct d as [|q], x as [x|xs]; simpl in Hd; try contradiction.
    + inversion W1; subst. cbn [cell_pointers StoreN store_n_variable]. rewrite store_lanes_some by assumption.
      cbn [obind]. rewrite IH, <- writes_app. f_equal. f_equal.
      rewrite values_cons, total_cons. cbn [depth_value]. rewrite seq_app. cbn [seq app]. reflexivity.
    + subst q. cbn [cell_pointers StoreN store_n_variable].
      rewrite (ofold_writes _ (fun k => lane_writes n (addr i (c + k)%nat) (nth k xs []))).
      * cbn [obind]. rewrite IH, <- writes_app. f_equal. f_equal.
        rewrite values_cons, total_cons. cbn [depth_value]. rewrite seq_app. unfold map2.
        rewrite combine_app by apply seq_length. rewrite map_app, concat_app. f_equal.
        rewrite flat_map_concat_map. f_equal. generalize c; clear.
        induction xs as [|y xs IH]; intros c; [reflexivity|].
        cbn [length seq combine map fst snd nth]. rewrite Nat.add_0_r. f_equal. rewrite <- (IH (S c)).
        rewrite <- seq_shift, map_map. apply map_ext. intros a. cbn [nth]. f_equal. f_equal. lia.
      * intros m1 k Hk. apply in_seq in Hk. rewrite (nth_error_nth' xs []) by lia. cbn [obind].
        rewrite <- Hstride. apply store_lanes_some. rewrite Forall_forall in W1. rewrite (W1 (nth k xs [])); [assumption|].
        apply nth_In. lia.
Qed.

End Pointers.

(** ** Lanes *)

Lemma values_lane {X} d j (s : pack_state X) : values (lane d j s) = map (fun l => nth j l d) (values s).
Proof.
  induction s as [|v s IH]; [reflexivity|]. cbn [lane map]. rewrite !values_cons, map_app. unfold lane in IH. rewrite IH.
  destruct v; reflexivity.
Qed.

Lemma lane_depths {X} d j ds (s : pack_state X) : of_depths ds s -> of_depths ds (lane d j s).
Proof.
  induction 1 as [|e v ds s He _ IH]; [constructor|]. constructor; [|exact IH].
  destruct e, v; simpl in *; try contradiction; [exact I|]. rewrite map_length. exact He.
Qed.

Lemma new_lanes_nth {X} (m : memory X) l a n j d : (j < n)%nat -> nth j (new_lanes m l a n) d = m (a + Z.of_nat j).
Proof.
  intros H. unfold new_lanes. rewrite app_nth1 by (rewrite map_length, seq_length; lia).
  rewrite (nth_indep _ d (m (a + Z.of_nat 0))) by (rewrite map_length, seq_length; lia).
  rewrite (map_nth (fun j => m (a + Z.of_nat j))). rewrite seq_nth by lia. reflexivity.
Qed.

Lemma new_lanes_rest {X} (m : memory X) l a n j d : (n <= j)%nat -> (n <= length l)%nat ->
  nth j (new_lanes m l a n) d = nth j l d.
Proof.
  intros H Hl. unfold new_lanes. rewrite app_nth2 by (rewrite map_length, seq_length; lia).
  rewrite map_length, seq_length. rewrite <- (firstn_skipn n l) at 2. rewrite app_nth2 by (rewrite firstn_length; lia).
  rewrite firstn_length. f_equal. lia.
Qed.

Lemma new_lanes_length {X} (m : memory X) l a n : (n <= length l)%nat -> length (new_lanes m l a n) = length l.
Proof. intros H. unfold new_lanes. rewrite app_length, map_length, seq_length, skipn_length. lia. Qed.

(** ** Summary *)

Lemma nth_error_ext {A} (a b : list A) : (forall k, nth_error a k = nth_error b k) -> a = b.
Proof.
  revert b; induction a as [|x a IH]; intros [|y b] H; [reflexivity|specialize (H O); discriminate|specialize (H O); discriminate|].
  f_equal; [specialize (H O); simpl in H; congruence|]. apply IH. intros k. apply (H (S k)).
Qed.

Lemma nth_error_seq n k : (k < n)%nat -> nth_error (seq 0 n) k = Some k.
Proof. intros H. rewrite (nth_error_nth' _ O) by (rewrite seq_length; assumption). rewrite seq_nth by assumption. reflexivity. Qed.

Lemma stored_spec X ptr lo len ncomp ds (s : state X) (m : memory X) i b view :
  length lo = length len -> of_depths ds s -> length i = length len ->
  box_of_rank (length len) b -> (forall j, in_box b j -> in_box (patch_box lo len) j) ->
  shows (length len) (element ptr lo len) b 0 ds view ->
  (in_box b i ->
     exists m', Store (length len) m view s i = Some m' /\
       (forall k, (k < total ds)%nat -> Some (m' (element ptr lo len i k)) = nth_error (values s) k) /\
       (forall a, (forall k, (k < total ds)%nat -> a <> element ptr lo len i k) -> m' a = m a) /\
       (forall j c, in_box (patch_box lo len) j -> j <> i \/ (total ds <= c)%nat ->
          m' (element ptr lo len j c) = m (element ptr lo len j c)) /\
       (forall t : state X, of_depths ds t -> Load (length len) m' t view i = Some s) /\
       (Z.of_nat (total ds) <= ncomp -> forall k, (k < total ds)%nat ->
          ptr <= element ptr lo len i k < ptr + product len * ncomp)) /\
  (~ in_box b i -> (0 < total ds)%nat ->
     Store (length len) m view s i = None /\ Load (length len) m s view i = None).
Proof.
  intros Hlo Hs Li Hb Hsub Hv.
  split.
  2:{ intros Hi Ht. split; [eapply store_none; eassumption|eapply load_none; eassumption]. }
  intros Hib. pose proof (Hsub i Hib) as Hi. eexists. split; [eapply store_some; eassumption|].
  set (l := combine (map (element ptr lo len i) (seq 0 (total ds))) (values s)).
  pose proof (values_length ds s Hs) as Lv.
  assert (map fst l = map (element ptr lo len i) (seq 0 (total ds))) as Ef.
  { unfold l. clear - Lv. assert (length (map (element ptr lo len i) (seq 0 (total ds))) = length (values s)) as L
      by (rewrite map_length, seq_length; congruence).
    revert L. generalize (map (element ptr lo len i) (seq 0 (total ds))) as a. generalize (values s) as v.
    induction v as [|x v IH]; intros [|y a] L; try discriminate; [reflexivity|]. simpl. rewrite IH by (simpl in L; lia). reflexivity. }
  assert (forall k x, nth_error (values s) k = Some x -> In (element ptr lo len i k, x) l) as Hin.
  { intros k x E. pose proof (nth_error_split _ _ E) as (l1 & l2 & El & Lk).
    unfold l. rewrite El. assert (total ds = (k + S (length l2))%nat) as -> by (rewrite <- Lv, El, app_length; simpl; lia).
    rewrite seq_app, map_app, combine_app by (rewrite map_length, seq_length; congruence).
    apply in_app_iff. right. left. reflexivity. }
  assert (forall a x, In (a, x) l -> exists k, (k < total ds)%nat /\ a = element ptr lo len i k /\ nth_error (values s) k = Some x) as Hout.
  { intros a x Hax. destruct (In_nth _ _ (0, x) Hax) as (k & Hk & E). unfold l in Hk, E.
    rewrite combine_length, map_length, seq_length in Hk.
    rewrite combine_nth in E by (rewrite map_length, seq_length; congruence). injection E as E1 E2.
    exists k. split; [lia|]. split.
    - rewrite <- E1. rewrite (nth_indep _ 0 (element ptr lo len i 0)) by (rewrite map_length, seq_length; lia).
      rewrite map_nth, seq_nth by lia. reflexivity.
    - rewrite <- E2. apply nth_error_nth'. lia. }
  assert (forall a y z, In (a, y) l -> In (a, z) l -> y = z) as Hcons.
  { intros a y z H1 H2. destruct (Hout _ _ H1) as (k1 & _ & E1 & N1). destruct (Hout _ _ H2) as (k2 & _ & E2 & N2).
    assert (k1 = k2) as -> by (apply (element_inj ptr lo len i i); try assumption; congruence). congruence. }
  assert (forall k x, nth_error (values s) k = Some x -> writes m l (element ptr lo len i k) = x) as Hw.
  { intros k x E. apply writes_in; [apply Hcons|]. apply Hin. exact E. }
  assert (forall a, (forall k, (k < total ds)%nat -> a <> element ptr lo len i k) -> writes m l a = m a) as Ho.
  { intros a Ha. apply writes_other. rewrite Ef. intros H. apply in_map_iff in H as (k & E & Hk). apply in_seq in Hk.
    apply (Ha k); [lia|congruence]. }
  split; [|split; [exact Ho|split; [|split]]].
  - intros k Hk. destruct (nth_error (values s) k) as [x|] eqn:E; [|apply nth_error_None in E; lia].
    rewrite (Hw k x E). reflexivity.
  - intros j c Hj Hne. apply Ho. intros k Hk E. destruct (element_inj ptr lo len j i c k Hlo Hj Hi E) as [-> ->].
    destruct Hne; [congruence|lia].
  - intros t Ht.
    destruct (load_some (length len) (element ptr lo len) b (writes m l) ds t i Hb Hib Li Ht 0 view Hv) as (s' & E & D & V).
    rewrite E. f_equal. apply (of_depths_ext ds); [assumption|assumption|]. rewrite V.
    apply nth_error_ext. intros k. destruct (Nat.lt_ge_cases k (total ds)) as [L|L].
    + destruct (nth_error (values s) k) as [x|] eqn:Ex; [|apply nth_error_None in Ex; lia].
      rewrite (nth_error_map (fun k => writes m l (element ptr lo len i k))).
      rewrite nth_error_seq by assumption. cbn [option_map]. f_equal. apply Hw. exact Ex.
    + replace (nth_error (values s) k) with (@None X) by (symmetry; apply nth_error_None; lia).
      apply nth_error_None. rewrite map_length, seq_length. lia.
  - intros Hn k Hk. unfold element.
    pose proof (offset_bounds _ _ (patch_local lo len i Hlo Hi)) as B. nia.
Qed.

Lemma shifted_set i d : (0 < length i)%nat -> exists c, shifted i c 0 d.
Proof.
  destruct i as [|x i]; intros H; [simpl in H; lia|]. exists ((x + d) :: i).
  split; [reflexivity|]. split; [reflexivity|]. intros [|k] Hk; [lia|reflexivity].
Qed.

Lemma shifted_inj i c c' d : shifted i c 0 d -> shifted i c' 0 d -> c = c'.
Proof.
  intros (L & E & Es) (L' & E' & Es'). apply (nth_ext _ _ 0 0); [congruence|]. intros [|k] _.
  - congruence.
  - rewrite Es, Es' by lia. reflexivity.
Qed.

Lemma pack_spec X (d : X) ptr lo len ds (s : pack_state X) (m : memory X) w n i b view :
  length lo = length len -> (0 < length len)%nat -> length i = length len ->
  of_depths ds s -> width w s -> (n <= w)%nat ->
  box_of_rank (length len) b -> (forall j, in_box b j -> in_box (patch_box lo len) j) ->
  shows (length len) (element ptr lo len) b 0 ds view ->
  (forall j c, (j < n)%nat -> shifted i c 0 (Z.of_nat j) -> in_box b c) ->
  (exists s', LoadN m s (cell_pointers (element ptr lo len) (product len) i 0 ds) n = Some s' /\ of_depths ds s' /\ width w s' /\
     (forall j c (t : state X), (j < n)%nat -> shifted i c 0 (Z.of_nat j) -> of_depths ds t ->
        Load (length len) m t view c = Some (lane d j s')) /\
     (forall j, (n <= j)%nat -> lane d j s' = lane d j s)) /\
  (exists m', StoreN m (cell_pointers (element ptr lo len) (product len) i 0 ds) s n = Some m' /\
     (forall j c (t : state X), (j < n)%nat -> shifted i c 0 (Z.of_nat j) -> of_depths ds t ->
        Load (length len) m' t view c = Some (lane d j s)) /\
     (forall a, (forall j c q, (j < n)%nat -> shifted i c 0 (Z.of_nat j) -> (q < total ds)%nat -> a <> element ptr lo len c q) ->
        m' a = m a)).
Proof.
  intros Hlo Hr Li Hs Hw Hn Hb Hsub Hv Hcells.
  pose proof (values_length ds s Hs) as Lv.
  assert (forall c j, shifted i c 0 j -> length c = length len) as Lc by (intros c j [L _]; congruence).
  assert (forall c j q, shifted i c 0 j -> element ptr lo len c q = element ptr lo len i q + j) as Esh
    by (intros c j q H; apply element_shift; (assumption || lia)).
  assert (forall l k, nth_error (values s) k = Some l -> length l = w) as Hlen.
  { intros l k E. unfold width in Hw. rewrite Forall_forall in Hw. apply Hw. eapply nth_error_In. exact E. }
  split.
  - destruct (load_n_some (element ptr lo len) (product len) i
      (fun c k => element_component ptr lo len i c k) m ds s w n Hn Hs Hw 0) as (s' & E & D & V).
    assert (forall k l, nth_error (values s) k = Some l ->
              nth_error (values s') k = Some (new_lanes m l (element ptr lo len i k) n)) as N.
    { intros k l Ek. assert (k < total ds)%nat as Lk by (rewrite <- Lv; apply nth_error_Some; congruence).
      rewrite V. unfold map2. rewrite nth_error_map.
      assert (nth_error (combine (seq 0 (total ds)) (values s)) k = Some (k, l)) as ->; [|reflexivity].
      rewrite (nth_error_nth' _ (O, l)) by (rewrite combine_length, seq_length; lia).
      rewrite combine_nth by (rewrite seq_length; congruence). rewrite seq_nth by assumption.
      rewrite (nth_error_nth _ _ l Ek). reflexivity. }
    pose proof (values_length ds s' D) as Lv'.
    exists s'. split; [exact E|]. split; [exact D|]. split; [|split].
    + apply Forall_forall. intros l' Hl'. apply In_nth_error in Hl' as (k & Ek).
      destruct (nth_error (values s) k) as [l|] eqn:El.
      * rewrite (N k l El) in Ek. injection Ek as <-. rewrite new_lanes_length by (rewrite (Hlen _ _ El); assumption).
        apply (Hlen _ _ El).
      * apply nth_error_None in El. assert (k < length (values s'))%nat by (apply nth_error_Some; congruence). lia.
    + intros j c t Hj Hc Ht.
      destruct (load_some (length len) (element ptr lo len) b m ds t c Hb (Hcells j c Hj Hc) (Lc _ _ Hc) Ht 0 view Hv) as (s1 & E1 & D1 & V1).
      rewrite E1. f_equal. apply (of_depths_ext ds); [assumption|apply lane_depths; assumption|].
      rewrite V1, values_lane. apply nth_error_ext. intros k. rewrite !nth_error_map.
      destruct (Nat.lt_ge_cases k (total ds)) as [L|L].
      * rewrite nth_error_seq by assumption. cbn [option_map].
        destruct (nth_error (values s) k) as [l|] eqn:El; [|apply nth_error_None in El; lia].
        rewrite (N k l El). cbn [option_map]. rewrite new_lanes_nth by assumption. rewrite (Esh c _ k Hc). reflexivity.
      * replace (nth_error (seq 0 (total ds)) k) with (@None nat) by (symmetry; apply nth_error_None; rewrite seq_length; lia).
        replace (nth_error (values s') k) with (@None (list X)) by (symmetry; apply nth_error_None; lia). reflexivity.
    + intros j Hj. apply (of_depths_ext ds); [apply lane_depths; assumption|apply lane_depths; assumption|].
      rewrite !values_lane. apply nth_error_ext. intros k. rewrite !nth_error_map.
      destruct (nth_error (values s) k) as [l|] eqn:El.
      * rewrite (N k l El). cbn [option_map]. rewrite new_lanes_rest by (rewrite ?(Hlen _ _ El); assumption). reflexivity.
      * apply nth_error_None in El. replace (nth_error (values s') k) with (@None (list X)) by (symmetry; apply nth_error_None; lia). reflexivity.
  - eexists. split; [apply (store_n_some (element ptr lo len) (product len) i
      (fun c k => element_component ptr lo len i c k) ds s w n Hn Hs Hw 0)|].
    set (l := concat (map2 (fun k l => lane_writes n (element ptr lo len i k) l) (seq 0 (total ds)) (values s))).
    assert (forall a x, In (a, x) l <-> exists k row j, nth_error (values s) k = Some row /\ (j < n)%nat /\
              a = element ptr lo len i k + Z.of_nat j /\ x = nth j row d) as Hl.
    { intros a x. unfold l. rewrite in_concat. split.
      - intros (ws & H1 & H2). unfold map2 in H1. apply in_map_iff in H1 as ([k row] & <- & H1). cbn [fst snd] in H2.
        destruct (In_nth _ _ (O, row) H1) as (q & Hq & Eq). rewrite combine_length, seq_length in Hq.
        rewrite combine_nth in Eq by (rewrite seq_length; congruence). injection Eq as E1 E2.
        rewrite seq_nth in E1 by lia. simpl in E1. subst q.
        assert (nth_error (values s) k = Some row) as Ek by (rewrite <- E2; apply nth_error_nth'; lia).
        unfold lane_writes in H2. destruct (In_nth _ _ (0, d) H2) as (j & Hj & Ej).
        assert (length (firstn n row) = n) as Lf by (rewrite firstn_length, (Hlen _ _ Ek); lia).
        rewrite combine_length, map_length, seq_length, Lf in Hj.
        rewrite combine_nth in Ej by (rewrite map_length, seq_length; congruence). injection Ej as J1 J2.
        exists k, row, j. split; [exact Ek|]. split; [lia|]. split.
        + rewrite <- J1. rewrite (nth_indep _ 0 (element ptr lo len i k + Z.of_nat 0)) by (rewrite map_length, seq_length; lia).
          rewrite (map_nth (fun j => element ptr lo len i k + Z.of_nat j)). rewrite seq_nth by lia. reflexivity.
        + rewrite <- J2. rewrite <- (firstn_skipn n row) at 2. rewrite app_nth1 by lia. reflexivity.
      - intros (k & row & j & Ek & Hj & -> & ->). exists (lane_writes n (element ptr lo len i k) row). split.
        + unfold map2. apply in_map_iff. exists (k, row). split; [reflexivity|].
          assert (k < total ds)%nat as Lk by (rewrite <- Lv; apply nth_error_Some; congruence).
          replace (k, row) with (nth k (combine (seq 0 (total ds)) (values s)) (O, row)).
          * apply nth_In. rewrite combine_length, seq_length. lia.
          * rewrite combine_nth by (rewrite seq_length; congruence). rewrite seq_nth by assumption.
            rewrite (nth_error_nth _ _ row Ek). reflexivity.
        + unfold lane_writes.
          assert (length (firstn n row) = n) as Lf by (rewrite firstn_length, (Hlen _ _ Ek); lia).
          replace (element ptr lo len i k + Z.of_nat j, nth j row d)
            with (nth j (combine (map (fun j => element ptr lo len i k + Z.of_nat j) (seq 0 n)) (firstn n row)) (element ptr lo len i k + Z.of_nat 0, d)).
          * apply nth_In. rewrite combine_length, map_length, seq_length. lia.
          * rewrite combine_nth by (rewrite map_length, seq_length; congruence). f_equal.
            -- rewrite (map_nth (fun j => element ptr lo len i k + Z.of_nat j)). rewrite seq_nth by lia. reflexivity.
            -- rewrite <- (firstn_skipn n row) at 2. rewrite app_nth1 by lia. reflexivity. }
    assert (0 < length i)%nat as Hi0 by lia.
    split.
    + intros j c t Hj Hc Ht.
      destruct (load_some (length len) (element ptr lo len) b (writes m l) ds t c Hb (Hcells j c Hj Hc) (Lc _ _ Hc) Ht 0 view Hv) as (s1 & E1 & D1 & V1).
      rewrite E1. f_equal. apply (of_depths_ext ds); [assumption|apply lane_depths; assumption|].
      rewrite V1, values_lane. apply nth_error_ext. intros k. rewrite !nth_error_map.
      destruct (Nat.lt_ge_cases k (total ds)) as [L|L].
      * rewrite nth_error_seq by assumption. cbn [option_map].
        destruct (nth_error (values s) k) as [row|] eqn:El; [|apply nth_error_None in El; lia]. cbn [option_map]. f_equal.
        apply writes_in.
        -- intros y z H1 H2. apply Hl in H1 as (k1 & r1 & j1 & K1 & J1 & A1 & ->). apply Hl in H2 as (k2 & r2 & j2 & K2 & J2 & A2 & ->).
           destruct (shifted_set i (Z.of_nat j1) Hi0) as (c1 & C1). destruct (shifted_set i (Z.of_nat j2) Hi0) as (c2 & C2).
           rewrite <- (Esh c1 _ k1 C1) in A1. rewrite <- (Esh c2 _ k2 C2) in A2.
           assert (element ptr lo len c1 k1 = element ptr lo len c2 k2) as Ee by congruence.
           destruct (element_inj ptr lo len c1 c2 k1 k2 Hlo (Hsub _ (Hcells j1 c1 J1 C1)) (Hsub _ (Hcells j2 c2 J2 C2)) Ee) as [-> ->].
           assert (j1 = j2) as ->. { destruct C1 as (_ & C1 & _), C2 as (_ & C2 & _). lia. }
           congruence.
        -- apply Hl. exists k, row, j. rewrite (Esh c _ k Hc). repeat split; assumption.
      * replace (nth_error (seq 0 (total ds)) k) with (@None nat) by (symmetry; apply nth_error_None; rewrite seq_length; lia).
        replace (nth_error (values s) k) with (@None (list X)) by (symmetry; apply nth_error_None; lia). reflexivity.
    + intros a Ha. apply writes_other. intros H. apply in_map_iff in H as ([a' x] & Ea & H). cbn [fst] in Ea. subst a'.
      apply Hl in H as (k & row & j & Ek & Hj & -> & ->).
      destruct (shifted_set i (Z.of_nat j) Hi0) as (c & C).
      apply (Ha j c k Hj C); [rewrite <- Lv; apply nth_error_Some; congruence|]. symmetry. apply Esh. exact C.
Qed.
