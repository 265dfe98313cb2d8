(** The conservative update: sequential and vectorised versions. *)
From Coq Require Import List ZArith Reals Lia Lra Bool Permutation.
From Verif Require Import ArrayModel ArraySpec ArrayProofs BoxProofs UpdateModel UpdateSpec UpdateProofs.
Import ListNotations.
Local Open Scope Z_scope.

Lemma strided_ok n v : strided_view n v -> view_ok v.
Proof. intros (e & s & E & H1 & H2 & H3 & _). unfold view_ok. rewrite E. cbn. congruence. Qed.

Lemma strided_row n v : strided_view n v -> row_view n v.
Proof. intros (e & s & E & H1 & H2 & H3 & H4). unfold row_view. rewrite E. cbn. auto. Qed.

Lemma range_indices_ranges (a b : list Z) :
  make_range_indices (map2 (fun o e => Range o (o + e)) a b) = seq 0 (length (map2 (fun o e => Range o (o + e)) a b)).
Proof.
  unfold make_range_indices. generalize (seq_NoDup (length (map2 (fun o e => Range o (o + e)) a b)) 0).
  intros _. rewrite filter_all; [reflexivity|]. apply forallb_forall. intros k Hk. apply in_seq in Hk.
  unfold map2 in *. rewrite map_length in Hk.
  rewrite (nth_indep _ All ((fun p : Z * Z => Range (fst p) (fst p + snd p)) (0, 0))) by (rewrite map_length; lia).
  rewrite (map_nth (fun p : Z * Z => Range (fst p) (fst p + snd p))). reflexivity.
Qed.

Lemma subview_strided n v b : (1 <= n)%nat -> strided_view n v -> box_of_rank n b -> strided_view n (Subview v b).
Proof.
  intros Hn (e & s & E & H1 & H2 & H3 & H4) [B1 B2].
  unfold strided_view, Subview, subspan. cbn [pdv_span md_map pdv_origin].
  eexists; eexists. split; [reflexivity|].
  assert (length (map2 (fun lo origin => lo - origin) (lower b) (pdv_origin v)) = n) as L1 by (rewrite map2_length; congruence).
  assert (length (map2 (fun lo up => up - lo) (lower b) (upper b)) = n) as L2 by (rewrite map2_length; congruence).
  split; [|split; [|split]].
  - rewrite make_slice_extents_length, result_rank_ranges, combine_length. lia.
  - unfold make_slice_array. rewrite map_length, range_indices_ranges, seq_length, map2_length by congruence. assumption.
  - assumption.
  - unfold make_slice_array. rewrite range_indices_ranges, map2_length by congruence. rewrite L1.
    destruct n as [|n]; [lia|]. cbn [seq map nth]. rewrite E. exact H4.
Qed.

Lemma slice_last_strided n v c : (1 <= n)%nat -> strided_view (S n) v ->
  strided_view n (SliceLast v c) /\ pdv_origin (SliceLast v c) = firstn n (pdv_origin v) /\
  map_extents (md_map (pdv_span (SliceLast v c))) = firstn n (map_extents (md_map (pdv_span v))) /\
  forall r, (r < n)%nat -> map_stride (md_map (pdv_span (SliceLast v c))) r = map_stride (md_map (pdv_span v)) r.
Proof.
  intros Hn (e & s & E & H1 & H2 & H3 & H4).
  unfold strided_view, SliceLast. rewrite E. cbn [pdv_span md_map pdv_origin map_extents map_stride].
  rewrite H1. replace (S n - 1)%nat with n by lia.
  change (map (fun k => nthZ e k) (seq 0 n)) with (map (nthZ e) (seq 0 n)).
  change (map (fun k => nthZ s k) (seq 0 n)) with (map (nthZ s) (seq 0 n)).
  rewrite !map_nthZ_firstn by lia.
  split; [|split; [reflexivity|split; [reflexivity|]]].
  - exists (firstn n e), (firstn n s). split; [reflexivity|]. rewrite !firstn_length.
    split; [lia|]. split; [lia|]. split; [lia|]. destruct n as [|n]; [lia|]. destruct s; [discriminate|]. exact H4.
  - intros r Hr. unfold nthZ. rewrite <- (firstn_skipn n s) at 2. rewrite app_nth1; [reflexivity|]. rewrite firstn_length. lia.
Qed.

Lemma plus_index_cons k l x o : plus_index (k :: l) (x :: o) = (k + x) :: plus_index l o.
Proof. reflexivity. Qed.

Lemma minus_plus i o : length i = length o -> map2 (fun i o => i - o) (plus_index i o) o = i.
Proof.
  revert o; induction i as [|x i IH]; intros [|y o] H; try discriminate; [reflexivity|].
  rewrite plus_index_cons. unfold map2 in *. cbn [combine map fst snd]. rewrite IH by (simpl in H; lia). f_equal. lia.
Qed.

Lemma md_at_pdv v rel : length rel = length (pdv_origin v) ->
  md_at (pdv_span v) rel = pdv_at v (plus_index rel (pdv_origin v)).
Proof. intros H. unfold pdv_at. rewrite minus_plus by assumption. reflexivity. Qed.

Lemma zrange_translate k a b : zrange (a + k) (b + k) = map (fun x => x + k) (zrange a b).
Proof. unfold zrange. rewrite map_map. replace (b + k - (a + k)) with (b - a) by lia. apply map_ext. intros; lia. Qed.

Lemma loop_indices_translate o e : length o = length e ->
  loop_indices o (map2 (fun e lo => lo + e) e o) = map (fun rel => plus_index rel o) (loop_indices (repeat 0 (length e)) e).
Proof.
  revert o; induction e as [|x e IH]; intros [|y o] H; try discriminate; [reflexivity|].
  cbn [length repeat loop_indices]. unfold map2 in *. cbn [combine map fst snd]. cbn [loop_indices].
  rewrite IH by (simpl in H; lia). rewrite flat_map_map, map_flat_map. apply flat_map_ext. intros outer.
  rewrite <- (Z.add_0_l y) at 1. rewrite (Z.add_comm y x), zrange_translate, !map_map. apply map_ext. intros k.
  reflexivity.
Qed.

Lemma flat_map_flat_map {A B C} (f : B -> list C) (g : A -> list B) l :
  flat_map f (flat_map g l) = flat_map (fun x => flat_map f (g x)) l.
Proof. induction l as [|x l IH]; [reflexivity|]. cbn [flat_map]. rewrite flat_map_app, IH. reflexivity. Qed.

Lemma loop_indices_snoc lo up a b : length lo = length up ->
  loop_indices (lo ++ [a]) (up ++ [b]) = flat_map (fun c => map (fun i => i ++ [c]) (loop_indices lo up)) (zrange a b).
Proof.
  revert up; induction lo as [|l lo IH]; intros [|u up] H; try discriminate.
  - cbn [app loop_indices flat_map]. rewrite app_nil_r. induction (zrange a b) as [|x r IHr]; [reflexivity|].
    cbn [map flat_map app]. rewrite IHr. reflexivity.
  - cbn [app loop_indices]. rewrite IH by (simpl in H; lia). rewrite flat_map_flat_map. apply flat_map_ext. intros c.
    rewrite flat_map_map, map_flat_map. apply flat_map_ext. intros outer. rewrite map_map. apply map_ext. reflexivity.
Qed.

(** ** The sequential update *)

Definition update_scalar (dt_dx : R) (vs : list R) : list R :=
  match vs with [p; a; b] => [(p + dt_dx * (a - b))%R] | _ => [] end.

Lemma update_lanewise width dt_dx : lanewise width 3 1 (update_kernel dt_dx) (update_scalar dt_dx).
Proof.
  intros vs Hl Hf. destruct vs as [|p [|a [|b [|]]]]; try discriminate.
  inversion Hf as [|? ? Hp Hf1]; subst. inversion Hf1 as [|? ? Ha Hf2]; subst. inversion Hf2 as [|? ? Hb _]; subst.
  cbn [update_kernel]. split; [reflexivity|].
  assert (length (map2 (fun x y => x - y)%R a b) = length p) as L1 by (rewrite map2_length; congruence).
  split; [constructor; [rewrite map2_length; congruence|constructor]|].
  intros i Hi. cbn [map update_scalar]. f_equal.
  assert (forall (f : R -> R -> R) (u v : list R), length u = length v -> (i < length u)%nat ->
            nth i (map2 f u v) 0%R = f (nth i u 0%R) (nth i v 0%R)) as Hn.
  { intros f u v Huv Hu. unfold map2.
    rewrite (nth_indep _ 0%R ((fun q : R * R => f (fst q) (snd q)) (0%R, 0%R))) by (rewrite map_length, combine_length; lia).
    rewrite (map_nth (fun q : R * R => f (fst q) (snd q))). rewrite combine_nth by assumption. reflexivity. }
  rewrite Hn by congruence. rewrite Hn by congruence. reflexivity.
Qed.

Lemma update_seq_steps m next prev fluxes dt dx dir :
  UpdateConservatively_seq m next prev fluxes dt dx dir =
  fold_left (fun o i => seq_step (update_scalar (dt / dx)) (update_job next prev fluxes dir) i o)
    (loop_indices (lower (pdv_box next)) (upper (pdv_box next))) (Finished m).
Proof.
  unfold UpdateConservatively_seq, ForEachIndex. apply fold_left_ext_in. intros o i _.
  destruct o as [m1| |]; [|reflexivity|reflexivity]. cbn [seq_step update_job fst snd loads load].
  destruct (m1 (pdv_at prev i)) as [u|]; [|reflexivity].
  destruct (m1 (pdv_at fluxes i)) as [a|]; [|reflexivity].
  destruct (m1 (pdv_at fluxes (Shift i dir 1))) as [b|]; [|reflexivity].
  cbn [map nth update_scalar stores store].
  destruct (m1 (pdv_at next i)) as [x|]; reflexivity.
Qed.

Lemma update_seq_done m next prev fluxes dt dx dir :
  conflict_free (map (update_job next prev fluxes dir) (loop_indices (lower (pdv_box next)) (upper (pdv_box next)))) ->
  jobs_allocated (map (update_job next prev fluxes dir) (loop_indices (lower (pdv_box next)) (upper (pdv_box next)))) m ->
  exists m', UpdateConservatively_seq m next prev fluxes dt dx dir = Finished m' /\
    jobs_done (update_scalar (dt / dx))
      (map (update_job next prev fluxes dir) (loop_indices (lower (pdv_box next)) (upper (pdv_box next)))) m m'.
Proof.
  intros Hc Ha. rewrite update_seq_steps. apply seq_done; [|assumption|assumption].
  intros i m1 _. reflexivity.
Qed.

(** ** The vectorised update *)

Lemma plus_grow rel o dir c : length o = S (length rel) -> (dir < length rel)%nat ->
  plus_index rel (firstn (length rel) (set_nth o dir (nthZ o dir - -1))) ++ [c] =
  Shift (plus_index rel (firstn (length rel) o) ++ [c]) dir 1.
Proof.
  revert o dir; induction rel as [|k rel IH]; intros [|x o] dir Hl Hd; cbn [length] in *; try lia.
  destruct dir as [|dir].
  - cbn [set_nth firstn]. unfold Shift. cbn. f_equal. lia.
  - cbn [set_nth firstn]. rewrite !plus_index_cons. unfold Shift, nthZ in *. cbn [app set_nth nth].
    f_equal. apply IH; lia.
Qed.

Lemma pdv_box_rank v : view_ok v -> box_of_rank (length (pdv_origin v)) (pdv_box v).
Proof.
  intros H. unfold view_ok in H. split; [reflexivity|]. cbn [pdv_box upper]. rewrite map2_length by congruence. congruence.
Qed.

Lemma grow_rank n b dir s : box_of_rank n b -> box_of_rank n (Grow b dir s).
Proof. intros [H1 H2]. split; cbn [Grow lower upper]; rewrite set_nth_length; assumption. Qed.

Section Simd.
Context (rank : nat) (next prev fluxes : PatchDataView) (dir : nat).
Hypothesis Hrank : (1 <= rank)%nat.
Hypothesis Hnext : strided_view (S rank) next.
Hypothesis Hprev : strided_view (S rank) prev.
Hypothesis Hflux : strided_view (S rank) fluxes.
Hypothesis Hor : pdv_origin prev = pdv_origin next.
Hypothesis Hz : nthZ (pdv_origin next) rank = 0.
Hypothesis Hdir : (dir < rank)%nat.

Let facesL := pdv_box next.
Let facesR := Grow facesL dir (-1, 1).
Let o' := firstn rank (pdv_origin next).

Lemma strided_leading v : strided_view (S rank) v -> leading_strides_kept (md_map (pdv_span v)).
Proof using Type. intros (e & s & E & H1 & H2 & _). rewrite E. cbn. congruence. Qed.

Lemma strided_origin v : strided_view (S rank) v -> length (pdv_origin v) = S rank.
Proof using Type. intros (e & s & E & H1 & H2 & H3 & _). assumption. Qed.

Lemma slice_job v c rel : strided_view (S rank) v -> nthZ (pdv_origin v) rank = 0 -> length rel = rank ->
  md_at (pdv_span (SliceLast v c)) rel = pdv_at v (plus_index rel (firstn rank (pdv_origin v)) ++ [c]).
Proof using Hrank Hdir.
  intros Hv Hzv Hl. destruct (slice_last_strided rank v c Hrank Hv) as (S1 & S2 & _).
  rewrite md_at_pdv.
  - rewrite S2. apply (slice_last_at v c _ rank).
    + eapply strided_ok; eassumption.
    + apply strided_leading; assumption.
    + apply strided_origin; assumption.
    + assumption.
    + rewrite plus_index_length; [assumption|]. rewrite firstn_length, (strided_origin v Hv). lia.
  - rewrite S2, firstn_length, (strided_origin v Hv). lia.
Qed.

Lemma facesL_rank : box_of_rank (S rank) facesL.
Proof using Hnext.
  pose proof (pdv_box_rank next (strided_ok _ _ Hnext)) as H. rewrite (strided_origin next Hnext) in H. exact H.
Qed.

Lemma update_slice_job c rel : length rel = rank ->
  view_job [SliceLast next c] [SliceLast prev c; SliceLast (Subview fluxes facesL) c; SliceLast (Subview fluxes facesR) c] rel =
  update_job next prev fluxes dir (plus_index rel o' ++ [c]).
Proof using All.
  intros Hl. unfold view_job, update_job. cbn [map].
  pose proof (strided_origin next Hnext) as Ln.
  pose proof facesL_rank as BL. pose proof (grow_rank (S rank) facesL dir (-1, 1) BL) as BR. fold facesR in BR.
  assert (length (plus_index rel o') = rank) as Lp.
  { rewrite plus_index_length; [assumption|]. unfold o'. rewrite firstn_length, Ln. lia. }
  rewrite (slice_job next), (slice_job prev); try assumption; [|rewrite Hor; assumption].
  rewrite Hor. fold o'.
  rewrite (slice_job (Subview fluxes facesL)); try assumption.
  2:{ apply subview_strided; [lia|assumption|assumption]. }
  rewrite (slice_job (Subview fluxes facesR)); try assumption.
  2:{ apply subview_strided; [lia|assumption|assumption]. }
  2:{ cbn [Subview pdv_origin]. unfold facesR, facesL. cbn [Grow lower pdv_box]. unfold nthZ in *.
      rewrite nth_set_nth. destruct (Nat.eqb_spec rank dir); [lia|]. assumption. }
  change (pdv_origin (Subview fluxes facesL)) with (pdv_origin next).
  change (pdv_origin (Subview fluxes facesR)) with (set_nth (pdv_origin next) dir (nthZ (pdv_origin next) dir - -1)).
  assert (length (pdv_origin fluxes) = S rank) as Lf by (apply strided_origin; assumption).
  fold o'. rewrite (subview_at fluxes facesL);
    [|eapply strided_ok; eassumption|rewrite Lf; assumption|rewrite app_length, Lp, Lf; simpl; lia].
  pose proof (plus_grow rel (pdv_origin next) dir c ltac:(lia) ltac:(lia)) as Eg.
  rewrite Hl in Eg. rewrite Eg. fold o'.
  rewrite (subview_at fluxes facesR);
    [|eapply strided_ok; eassumption|rewrite Lf; assumption|].
  - reflexivity.
  - unfold Shift. rewrite set_nth_length, app_length, Lp, Lf. simpl. lia.
Qed.

Hypothesis Hshape : update_shape rank next.

Lemma slice_rows_shape c : rows_shape rank (md_map (pdv_span (SliceLast next c))) /\ 0 <= extent0 (SliceLast next c) 0.
Proof using All.
  destruct (slice_last_strided rank next c Hrank Hnext) as ((e1 & s1 & E1 & L1 & L2 & L3 & L4) & S2 & S3 & S4).
  destruct Hshape as (Hr & Hpos & Hc & H2). unfold extent0 in *. rewrite S3.
  assert (forall r, (r < rank)%nat -> 0 < nth r (firstn rank (map_extents (md_map (pdv_span next)))) 0) as P.
  { intros r Hrr. specialize (Hpos r Hrr).
    destruct Hnext as (e & s & E & Le & _). rewrite E in *. cbn [map_extents] in *.
    rewrite <- (firstn_skipn rank e) in Hpos. rewrite app_nth1 in Hpos; [assumption|]. rewrite firstn_length. lia. }
  split; [|specialize (P 0%nat ltac:(lia)); lia].
  pose proof (P 0%nat ltac:(lia)) as P0.
  rewrite E1 in S3, S4 |- *. cbn [map_extents map_stride] in S3, S4. subst e1.
  destruct Hr as [Hr|[Hr|Hr]]; rewrite Hr in *; cbn [rows_shape map_extents].
  - lia.
  - pose proof (P 1%nat ltac:(lia)) as P1.
    remember (firstn 2 (map_extents (md_map (pdv_span next)))) as e1 eqn:Ee.
    specialize (H2 eq_refl). pose proof (S4 1%nat ltac:(lia)) as S41. rewrite <- S41 in H2.
    assert (nth 0 (map_extents (md_map (pdv_span next))) 0 = nth 0 e1 0) as E0.
    { rewrite Ee. destruct (map_extents (md_map (pdv_span next))); reflexivity. }
    rewrite E0 in H2.
    destruct e1 as [|x0 [|x1 [|]]]; try discriminate. destruct s1 as [|y0 [|y1 [|]]]; try discriminate.
    cbn [first_view_ok nth] in *. unfold nthZ in H2. cbn [nth] in H2. lia.
  - pose proof (P 1%nat ltac:(lia)) as P1. pose proof (P 2%nat ltac:(lia)) as P2. lia.
Qed.

Lemma split_cells :
  loop_indices (lower (pdv_box next)) (upper (pdv_box next)) =
  flat_map (fun c => map (fun rel => plus_index rel o' ++ [c])
                         (loop_indices (repeat 0 rank) (firstn rank (map_extents (md_map (pdv_span next))))))
           (zrange 0 (nthZ (map_extents (md_map (pdv_span next))) rank)).
Proof using Hnext Hz.
  destruct Hnext as (e & s & E & Le & Ls & Lo & _). unfold o'. cbn [pdv_box lower upper]. rewrite E. cbn [map_extents].
  clear - Lo Le Hz. revert Hz Lo. generalize (pdv_origin next) as o. intros o Hz Lo.
  destruct (split_last e rank Le) as (e1 & x & -> & L1). destruct (split_last o rank Lo) as (o1 & z & -> & L2).
  unfold nthZ in *. rewrite app_nth2 in Hz by lia. rewrite L2, Nat.sub_diag in Hz. cbn in Hz. subst z.
  rewrite app_nth2 by lia. rewrite L1, Nat.sub_diag. cbn [nth].
  rewrite map2_app by congruence. rewrite Z.add_0_l.
  rewrite loop_indices_snoc by (rewrite map2_length; congruence).
  rewrite !firstn_app, L1, L2, Nat.sub_diag, !firstn_O, !app_nil_r.
  replace (firstn rank o1) with o1 by (rewrite <- L2; symmetry; apply firstn_all).
  replace (firstn rank e1) with e1 by (rewrite <- L1; symmetry; apply firstn_all).
  rewrite loop_indices_translate by congruence. rewrite L1. apply flat_map_ext. intros c. rewrite map_map. reflexivity.
Qed.

Lemma update_simd_done width stale dt dx :
  (1 <= width)%nat -> (forall n, (n <= width)%nat -> length (stale n) = (width - n)%nat) ->
  conflict_free (map (update_job next prev fluxes dir) (loop_indices (lower (pdv_box next)) (upper (pdv_box next)))) ->
  exists N, forall fuel m, (N < fuel)%nat ->
  jobs_allocated (map (update_job next prev fluxes dir) (loop_indices (lower (pdv_box next)) (upper (pdv_box next)))) m ->
  exists m', UpdateConservatively_simd fuel width stale rank m next prev fluxes dt dx dir = Finished m' /\
    jobs_done (update_scalar (dt / dx))
      (map (update_job next prev fluxes dir) (loop_indices (lower (pdv_box next)) (upper (pdv_box next)))) m m'.
Proof using All.
  intros Hw Hst. rewrite split_cells. unfold UpdateConservatively_simd.
  generalize (zrange 0 (nthZ (map_extents (md_map (pdv_span next))) rank)) as comps.
  induction comps as [|c comps IH]; intros Hc.
  - exists 0%nat. intros fuel m _ _. exists m. split; [reflexivity|apply done_nil].
  - cbn [flat_map fold_left] in *. rewrite map_app in *.
    destruct (IH (cf_app_r _ _ Hc)) as (N2 & H2).
    set (cells := loop_indices (repeat 0 rank) (firstn rank (map_extents (md_map (pdv_span next))))) in *.
    destruct (slice_last_strided rank next c Hrank Hnext) as (SS1 & SS2 & SS3 & SS4).
    pose proof facesL_rank as BL. pose proof (grow_rank (S rank) facesL dir (-1, 1) BL) as BR.
    assert (map (view_job [SliceLast next c]
              [SliceLast prev c; SliceLast (Subview fluxes facesL) c; SliceLast (Subview fluxes facesR) c]) cells =
            map (update_job next prev fluxes dir) (map (fun rel => plus_index rel o' ++ [c]) cells)) as Ej.
    { rewrite map_map. apply map_ext_in. intros rel Hrel. apply update_slice_job.
      apply loop_indices_length in Hrel; [rewrite repeat_length in Hrel; assumption|].
      destruct Hnext as (e & s & E & Le & _). rewrite E. cbn [map_extents]. rewrite repeat_length, firstn_length. lia. }
    destruct (for_each_row_done width (update_kernel (dt / dx)) (update_scalar (dt / dx)) stale rank
      [SliceLast next c] [SliceLast prev c; SliceLast (Subview fluxes facesL) c; SliceLast (Subview fluxes facesR) c]
      (update_lanewise width (dt / dx)) Hw Hst) with (e := firstn rank (map_extents (md_map (pdv_span next)))) as (N1 & H1).
    + cbn; lia.
    + cbn [app]. repeat constructor.
      * apply strided_row in SS1. apply SS1.
      * apply strided_row in SS1. apply SS1.
      * destruct (slice_last_strided rank prev c Hrank Hprev) as (T & _). apply strided_row in T. apply T.
      * destruct (slice_last_strided rank prev c Hrank Hprev) as (T & _). apply strided_row in T. apply T.
      * destruct (slice_last_strided rank (Subview fluxes facesL) c Hrank) as (T & _);
          [apply subview_strided; [lia|assumption|assumption]|]. apply strided_row in T. apply T.
      * destruct (slice_last_strided rank (Subview fluxes facesL) c Hrank) as (T & _);
          [apply subview_strided; [lia|assumption|assumption]|]. apply strided_row in T. apply T.
      * destruct (slice_last_strided rank (Subview fluxes facesR) c Hrank) as (T & _);
          [apply subview_strided; [lia|assumption|assumption]|]. apply strided_row in T. apply T.
      * destruct (slice_last_strided rank (Subview fluxes facesR) c Hrank) as (T & _);
          [apply subview_strided; [lia|assumption|assumption]|]. apply strided_row in T. apply T.
    + intros v0 E0. injection E0 as <-. apply slice_rows_shape.
    + intros v0 E0. injection E0 as <-. symmetry. exact SS3.
    + fold cells. rewrite Ej. eapply cf_app_l; eassumption.
    + fold cells in H1. rewrite Ej in H1.
      exists (Nat.max N1 N2). intros fuel m Hf Ha.
      destruct (H1 fuel m ltac:(lia) (alloc_app_l _ _ _ Ha)) as (m1 & E1 & D1).
      cbv zeta. fold facesL. fold facesR. cbn [app length] in E1. rewrite E1.
      destruct (H2 fuel m1 ltac:(lia) (alloc_app_r _ _ _ _ _ Ha D1)) as (m2 & E2 & D2).
      exists m2. split; [exact E2|]. eapply done_app; eassumption.
Qed.

End Simd.
