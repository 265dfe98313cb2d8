(** Conservation and the forward integrator. *)
From Coq Require Import List ZArith Reals Lia Lra Bool Permutation.
From Verif Require Import ArrayModel ArraySpec ArrayProofs BoxProofs UpdateModel UpdateSpec UpdateProofs UpdateProofs2 UpdateProofs3.
Import ListNotations.
Local Open Scope Z_scope.

Lemma box_cells n b : box_of_rank n b ->
  (forall c, In c (loop_indices (lower b) (upper b)) <-> in_box b c) /\ NoDup (loop_indices (lower b) (upper b)).
Proof.
  intros [H1 H2]. split.
  - intros c. apply loop_indices_in. congruence.
  - apply sorted_nodup, loop_indices_sorted.
Qed.

Lemma NoDup_map_in {A B} (f : A -> B) l : (forall x y, In x l -> In y l -> f x = f y -> x = y) -> NoDup l -> NoDup (map f l).
Proof.
  intros Hf Hn. induction Hn as [|x l Hx Hn IH]; [constructor|]. cbn [map]. constructor.
  - intros H. apply in_map_iff in H as (y & E & Hy). apply Hx. rewrite <- (Hf y x); [assumption|right; assumption|left; reflexivity|assumption].
  - apply IH. intros a b Ha Hb. apply Hf; right; assumption.
Qed.

Lemma update_data_jobs m next prev fluxes dir :
  view_ok next -> update_data_ok m next prev fluxes dir ->
  let jobs := map (update_job next prev fluxes dir) (loop_indices (lower (pdv_box next)) (upper (pdv_box next))) in
  conflict_free jobs /\ jobs_allocated jobs m.
Proof.
  intros Hv [Hd Ha] jobs. destruct (box_cells _ _ (pdv_box_rank next Hv)) as [Hin Hnd].
  assert (forall x, In x jobs -> exists c, in_box (pdv_box next) c /\ x = update_job next prev fluxes dir c) as Hj.
  { intros x Hx. apply in_map_iff in Hx as (c & <- & Hc). exists c. split; [apply Hin; assumption|reflexivity]. }
  split; [split; [|split]|].
  - apply NoDup_map_in; [|assumption]. intros x y Hx Hy E. unfold update_job in E. injection E as E _ _ _.
    apply Hin in Hx, Hy. exact (proj1 (Hd y x Hy Hx) E).
  - intros a Haj. destruct (Hj a Haj) as (c & _ & ->). cbn. constructor; [intros []|constructor].
  - intros a b x Haj Hbj Hxa Hxb. destruct (Hj a Haj) as (c & Hc & ->). destruct (Hj b Hbj) as (c' & Hc' & ->).
    cbn [update_job fst snd] in *. destruct Hxa as [Hxa|[]]. subst x.
    destruct (Hd c c' Hc Hc') as (D1 & D2 & D3 & D4).
    destruct Hxb as [[Hxb|[]]|[Hxb|[Hxb|[Hxb|[]]]]].
    + rewrite (D1 Hxb). reflexivity.
    + rewrite (D2 Hxb). reflexivity.
    + contradiction.
    + contradiction.
  - intros a x Haj Hx. destruct (Hj a Haj) as (c & Hc & ->). cbn [update_job fst snd] in Hx.
    destruct (Ha c Hc) as (A1 & A2 & A3 & A4).
    destruct Hx as [[<-|[]]|[<-|[<-|[<-|[]]]]]; assumption.
Qed.

Lemma update_jobs_pointwise m m' next prev fluxes dir dt_dx :
  view_ok next ->
  jobs_done (update_scalar dt_dx)
    (map (update_job next prev fluxes dir) (loop_indices (lower (pdv_box next)) (upper (pdv_box next)))) m m' ->
  (forall c, in_box (pdv_box next) c ->
     m' (pdv_at next c) =
     Some (val m (pdv_at prev c) + dt_dx * (val m (pdv_at fluxes c) - val m (pdv_at fluxes (Shift c dir 1))))%R) /\
  (forall a, (forall c, in_box (pdv_box next) c -> a <> pdv_at next c) -> m' a = m a).
Proof.
  intros Hv [D1 D2]. destruct (box_cells _ _ (pdv_box_rank next Hv)) as [Hin Hnd]. split.
  - intros c Hc. apply Hin in Hc.
    apply (D1 (update_job next prev fluxes dir c) 0%nat); [apply in_map; assumption|cbn; lia].
  - intros a H. apply D2. intros j Hj Hx. apply in_map_iff in Hj as (c & <- & Hc).
    destruct Hx as [Hx|[]]. apply (H c); [apply Hin; assumption|symmetry; assumption].
Qed.

Lemma update_seq_pointwise m next prev fluxes dt dx dir :
  view_ok next -> update_data_ok m next prev fluxes dir ->
  exists m', UpdateConservatively_seq m next prev fluxes dt dx dir = Finished m' /\
  (forall c, in_box (pdv_box next) c ->
     m' (pdv_at next c) =
     Some (val m (pdv_at prev c) + dt / dx * (val m (pdv_at fluxes c) - val m (pdv_at fluxes (Shift c dir 1))))%R) /\
  (forall a, (forall c, in_box (pdv_box next) c -> a <> pdv_at next c) -> m' a = m a).
Proof.
  intros Hv Hok. destruct (update_data_jobs _ _ _ _ _ Hv Hok) as [Hc Ha].
  destruct (update_seq_done m next prev fluxes dt dx dir Hc Ha) as (m' & E & D).
  exists m'. split; [assumption|]. apply update_jobs_pointwise; assumption.
Qed.

Lemma update_simd_pointwise rank width stale m next prev fluxes dt dx dir :
  strided_view (S rank) next -> strided_view (S rank) prev -> strided_view (S rank) fluxes ->
  pdv_origin prev = pdv_origin next -> nthZ (pdv_origin next) rank = 0 -> (dir < rank)%nat ->
  update_shape rank next -> (1 <= width)%nat ->
  (forall n, (n <= width)%nat -> length (stale n) = (width - n)%nat) ->
  update_data_ok m next prev fluxes dir ->
  exists N m', forall fuel, (N < fuel)%nat -> exists m'',
    UpdateConservatively_simd fuel width stale rank m next prev fluxes dt dx dir = Finished m'' /\
    UpdateConservatively_seq m next prev fluxes dt dx dir = Finished m' /\ forall a, m'' a = m' a.
Proof.
  intros H1 H2 H3 H4 H5 H6 H7 H8 H9 H10. pose proof (strided_ok _ _ H1) as Hv.
  destruct (update_data_jobs _ _ _ _ _ Hv H10) as [Hc Ha].
  assert (1 <= rank)%nat as Hr by lia.
  destruct (update_simd_done rank next prev fluxes dir Hr H1 H2 H3 H4 H5 H6 H7 width stale dt dx H8 H9 Hc) as (N & HN).
  destruct (update_seq_done m next prev fluxes dt dx dir Hc Ha) as (m' & E & D).
  exists N, m'. intros fuel Hf. destruct (HN fuel m Hf Ha) as (m'' & E2 & D2). exists m''.
  split; [assumption|]. split; [assumption|]. eapply done_unique; [|exact D2|exact D]. intros; reflexivity.
Qed.

(** ** Fluxes *)

Lemma flux_data_jobs m f0 fluxes states dir width :
  view_ok f0 -> flux_data_ok m (pdv_box f0) (f0 :: fluxes) states dir width ->
  let jobs := map (flux_job (f0 :: fluxes) states dir width) (loop_indices (lower (pdv_box f0)) (upper (pdv_box f0))) in
  conflict_free jobs /\ jobs_allocated jobs m.
Proof.
  intros Hv (Hd & Hs & Ha & Hb) jobs. destruct (box_cells _ _ (pdv_box_rank f0 Hv)) as [Hin Hnd].
  assert (forall x, In x jobs -> exists c, in_box (pdv_box f0) c /\ x = flux_job (f0 :: fluxes) states dir width c) as Hj.
  { intros x Hx. apply in_map_iff in Hx as (c & <- & Hc). exists c. split; [apply Hin; assumption|reflexivity]. }
  cbn [nth] in Hd. set (fs := f0 :: fluxes) in *.
  assert (forall c x, In x (fst (flux_job fs states dir width c)) -> exists i, (i < length fs)%nat /\ x = pdv_at (nth i fs f0) c) as Hfst.
  { intros c x Hx. cbn [flux_job fst] in Hx. apply in_map_iff in Hx as (v & <- & Hvi).
    destruct (In_nth _ _ f0 Hvi) as (i & Hi & <-). exists i. split; [assumption|reflexivity]. }
  assert (forall c x, In x (snd (flux_job fs states dir width c)) ->
            exists s k, In s states /\ - Z.of_nat width <= k < Z.of_nat width /\ x = pdv_at s (Shift c dir k)) as Hsnd.
  { intros c x Hx. cbn [flux_job snd] in Hx. apply in_flat_map in Hx as (i & Hi & Hx). apply in_seq in Hi.
    apply in_map_iff in Hx as (s & <- & Hsi). exists s, (Z.of_nat i - Z.of_nat width). split; [assumption|]. split; [lia|reflexivity]. }
  split; [split; [|split]|].
  - apply NoDup_map_in; [|assumption]. intros x y Hx Hy E. unfold flux_job, fs in E. cbn [map] in E. injection E as E _ _.
    apply Hin in Hx, Hy. apply (Hd x y 0%nat 0%nat); try assumption; cbn; lia.
  - intros a Haj. destruct (Hj a Haj) as (c & Hc & ->). cbn [flux_job fst].
    apply (NoDup_nth _ 0). intros i j Hi Hjj E. rewrite map_length in Hi, Hjj.
    rewrite (nth_indep _ 0 (pdv_at f0 c)) in E by (rewrite map_length; assumption).
    rewrite (nth_indep _ 0 (pdv_at f0 c)) in E by (rewrite map_length; assumption).
    rewrite !(map_nth (fun v => pdv_at v c)) in E.
    apply (Hd c c i j Hc Hc Hi Hjj E).
  - intros a b x Haj Hbj Hxa Hxb. destruct (Hj a Haj) as (c & Hc & ->). destruct (Hj b Hbj) as (c' & Hc' & ->).
    destruct (Hfst _ _ Hxa) as (i & Hi & ->). destruct Hxb as [Hxb|Hxb].
    + destruct (Hfst _ _ Hxb) as (j & Hjj & E). destruct (Hd c c' i j Hc Hc' Hi Hjj E) as [-> _]. reflexivity.
    + destruct (Hsnd _ _ Hxb) as (s & k & Hsi & Hk & E). exfalso.
      apply (Hs c c' (nth i fs f0) s k); try assumption; [apply nth_In; assumption|symmetry; assumption].
  - intros a x Haj Hx. destruct (Hj a Haj) as (c & Hc & ->). destruct Hx as [Hx|Hx].
    + destruct (Hfst _ _ Hx) as (i & Hi & ->). apply Ha; [assumption|apply nth_In; assumption].
    + destruct (Hsnd _ _ Hx) as (s & k & Hsi & Hk & ->). apply Hb; assumption.
Qed.

Lemma flux_simd_pointwise rank chunk kernel K stale m f0 fluxes states dir width :
  Forall (strided_view rank) (f0 :: fluxes) -> Forall (strided_view rank) states ->
  Forall (fun v => pdv_origin v = pdv_origin f0) fluxes -> (dir < rank)%nat -> (1 <= width)%nat -> flux_shape rank f0 ->
  lanewise chunk (2 * width * length states) (length (f0 :: fluxes)) kernel K ->
  (forall xs, length xs = (2 * width * length states)%nat -> length (K xs) = length (f0 :: fluxes)) ->
  (1 <= chunk)%nat -> (forall n, (n <= chunk)%nat -> length (stale n) = (chunk - n)%nat) ->
  flux_data_ok m (pdv_box f0) (f0 :: fluxes) states dir width ->
  exists N m', forall fuel, (N < fuel)%nat -> exists m'',
    ComputeNumericFluxes_simd fuel chunk kernel stale rank m (f0 :: fluxes) states dir width = Finished m'' /\
    ComputeNumericFluxes_seq K m (f0 :: fluxes) states dir width = Finished m' /\ forall a, m'' a = m' a.
Proof.
  intros H1 H2 H3 H4 H5 H6 H7 H8 H9 H10 H11.
  pose proof (strided_ok _ _ (Forall_inv H1)) as Hv.
  destruct (flux_data_jobs _ _ _ _ _ _ Hv H11) as [Hc Ha].
  destruct (flux_simd_done rank f0 fluxes states dir width H1 H2 H3 H4 H5 H6 chunk kernel K stale H7 H9 H10 Hc) as (N & HN).
  destruct (flux_seq_done K m f0 fluxes states dir width) as (m' & E & D); try assumption.
  - cbn [pdv_box lower]. pose proof (Forall_inv H1) as (? & ? & ? & ? & ? & L & _). lia.
  - exists N, m'. intros fuel Hf. destruct (HN fuel m Hf Ha) as (m'' & E2 & D2). exists m''.
    split; [assumption|]. split; [assumption|]. eapply done_unique; [|exact D2|exact D]. intros; reflexivity.
Qed.

Lemma flux_seq_pointwise K m f0 fluxes states dir width :
  (dir < length (pdv_origin f0))%nat -> view_ok f0 ->
  (forall xs, length xs = (2 * width * length states)%nat -> length (K xs) = length (f0 :: fluxes)) ->
  flux_data_ok m (pdv_box f0) (f0 :: fluxes) states dir width ->
  exists m', ComputeNumericFluxes_seq K m (f0 :: fluxes) states dir width = Finished m' /\
    (forall f j, in_box (pdv_box f0) f -> (j < length (f0 :: fluxes))%nat ->
       m' (pdv_at (nth j (f0 :: fluxes) f0) f) =
       Some (nth j (K (flat_map (fun i => map (fun v => val m (pdv_at v (Shift f dir (Z.of_nat i - Z.of_nat width)))) states)
                                (seq 0 (2 * width)))) 0%R)) /\
    (forall a, (forall f v, in_box (pdv_box f0) f -> In v (f0 :: fluxes) -> a <> pdv_at v f) -> m' a = m a).
Proof.
  intros Hd Hv HK Hok. destruct (flux_data_jobs _ _ _ _ _ _ Hv Hok) as [Hc Ha].
  destruct (flux_seq_done K m f0 fluxes states dir width Hd Hv HK Hc Ha) as (m' & E & D1 & D2).
  exists m'. split; [assumption|]. destruct (box_cells _ _ (pdv_box_rank f0 Hv)) as [Hin _]. split.
  - intros f j Hf Hj. apply Hin in Hf.
    specialize (D1 (flux_job (f0 :: fluxes) states dir width f) j (in_map _ _ _ Hf)).
    destruct (flux_job_lengths (f0 :: fluxes) states dir width f) as [L1 _]. rewrite L1 in D1. specialize (D1 Hj).
    cbn [flux_job fst snd] in D1. rewrite map_flat_map in D1.
    rewrite (nth_indep _ 0 (pdv_at f0 f)) in D1 by (rewrite map_length; assumption).
    rewrite (map_nth (fun v => pdv_at v f)) in D1. rewrite D1. do 3 f_equal. apply flat_map_ext. intros i. apply map_map.
  - intros a H. apply D2. intros x Hx Hax. apply in_map_iff in Hx as (c & <- & Hcell).
    cbn [flux_job fst] in Hax. apply in_map_iff in Hax as (v & E' & Hvi). apply (H c v); [apply Hin; assumption|assumption|].
    symmetry; assumption.
Qed.

(** ** Sums *)

Lemma Rsum_app a b : Rsum (a ++ b) = (Rsum a + Rsum b)%R.
Proof. unfold Rsum. induction a as [|x a IH]; cbn [app fold_right]; [lra|]. rewrite IH. lra. Qed.

Lemma Rsum_perm a b : Permutation a b -> Rsum a = Rsum b.
Proof. unfold Rsum. induction 1; cbn [fold_right]; lra. Qed.

Lemma Rsum_split {A} (p : A -> bool) (g : A -> R) l :
  Rsum (map g l) = (Rsum (map g (filter p l)) + Rsum (map g (filter (fun x => negb (p x)) l)))%R.
Proof.
  induction l as [|x l IH]; cbn [map filter]; [cbn; lra|]. destruct (p x); cbn [negb map]; unfold Rsum in *; cbn [fold_right]; lra.
Qed.

Lemma Rsum_plus {A} (f g : A -> R) l : Rsum (map (fun x => f x + g x)%R l) = (Rsum (map f l) + Rsum (map g l))%R.
Proof. unfold Rsum. induction l as [|x l IH]; cbn [map fold_right]; [lra|]. rewrite IH. lra. Qed.

Lemma Rsum_scal {A} (f : A -> R) k l : Rsum (map (fun x => k * f x)%R l) = (k * Rsum (map f l))%R.
Proof. unfold Rsum. induction l as [|x l IH]; cbn [map fold_right]; [lra|]. rewrite IH. lra. Qed.

Lemma Rsum_minus {A} (f g : A -> R) l : Rsum (map (fun x => f x - g x)%R l) = (Rsum (map f l) - Rsum (map g l))%R.
Proof. unfold Rsum. induction l as [|x l IH]; cbn [map fold_right]; [lra|]. rewrite IH. lra. Qed.

Lemma Shift_0 i dir : Shift i dir 0 = i.
Proof. unfold Shift, nthZ. rewrite Z.add_0_r. apply set_nth_same. Qed.

Lemma nth_Shift_same i dir k : (dir < length i)%nat -> nth dir (Shift i dir k) 0 = nth dir i 0 + k.
Proof. intros H. unfold Shift. apply nth_set_same. assumption. Qed.

Lemma in_box_Shift b c dir k : in_box b c -> (dir < length c)%nat ->
  nth dir (lower b) 0 <= nth dir c 0 + k < nth dir (upper b) 0 -> in_box b (Shift c dir k).
Proof.
  intros (H1 & H2 & H3) Hd Hk. unfold in_box, inside, Shift. rewrite set_nth_length. split; [assumption|]. split; [assumption|].
  intros r Hr. rewrite nth_set_nth. destruct (Nat.eqb_spec r dir) as [->|]; cbn [andb].
  - destruct (Nat.ltb_spec dir (length c)); [|lia]. exact Hk.
  - apply H3. assumption.
Qed.

(** Sums of differences along whole lines telescope *)
Lemma telescope b dir cells (F : list Z -> R) :
  whole_lines b dir cells -> (dir < length (lower b))%nat ->
  Rsum (map (fun c => F c - F (Shift c dir 1))%R cells) =
  (Rsum (map F (filter (fun c => Z.eqb (nth dir c 0%Z) (nth dir (lower b) 0%Z)) cells)) -
   Rsum (map (fun c => F (Shift c dir 1)) (filter (fun c => Z.eqb (nth dir c 0%Z) (nth dir (upper b) 0%Z - 1)%Z) cells)))%R.
Proof.
  intros (Hnd & Hbox & Hcl) Hd. rewrite Rsum_minus.
  rewrite (Rsum_split (fun c => Z.eqb (nth dir c 0) (nth dir (lower b) 0)) F cells).
  rewrite (Rsum_split (fun c => Z.eqb (nth dir c 0) (nth dir (upper b) 0 - 1)) (fun c => F (Shift c dir 1)) cells).
  assert (Permutation (filter (fun x => negb (Z.eqb (nth dir x 0) (nth dir (lower b) 0))) cells)
            (map (fun c => Shift c dir 1) (filter (fun x => negb (Z.eqb (nth dir x 0) (nth dir (upper b) 0 - 1))) cells))) as P.
  { apply NoDup_Permutation.
    - apply NoDup_filter; assumption.
    - apply NoDup_map_in; [|apply NoDup_filter; assumption]. intros x y Hx Hy E.
      apply filter_In in Hx as [Hx _]. apply filter_In in Hy as [Hy _].
      destruct (Hbox x Hx) as (L1 & _). destruct (Hbox y Hy) as (L2 & _).
      apply (f_equal (fun l => Shift l dir (-1))) in E. rewrite !Shift_Shift in E by lia. cbn in E. rewrite !Shift_0 in E. assumption.
    - intros c. rewrite filter_In, in_map_iff. split.
      + intros [Hc Hne]. destruct (Hbox c Hc) as (L1 & L2 & L3). pose proof (L3 dir ltac:(lia)) as Hdir.
        apply negb_true_iff, Z.eqb_neq in Hne.
        exists (Shift c dir (-1)). rewrite Shift_Shift by lia. split; [apply Shift_0|].
        apply filter_In. split.
        * apply Hcl; [assumption|]. apply in_box_Shift; [split; [|split]; assumption|lia|lia].
        * apply negb_true_iff, Z.eqb_neq. rewrite nth_Shift_same by lia. lia.
      + intros (x & <- & Hx). apply filter_In in Hx as [Hx Hne]. destruct (Hbox x Hx) as (L1 & L2 & L3).
        pose proof (L3 dir ltac:(lia)) as Hdir. apply negb_true_iff, Z.eqb_neq in Hne. split.
        * apply Hcl; [assumption|]. apply in_box_Shift; [split; [|split]; assumption|lia|lia].
        * apply negb_true_iff, Z.eqb_neq. rewrite nth_Shift_same by lia. lia. }
  match goal with |- (?a + ?b - (?c + ?d) = _)%R => assert (b = d) as E; [|rewrite E; match goal with |- (?a + ?b - (?c + ?b) = ?e)%R => change (a + b - (c + b) = a - c)%R end; ring] end.
  refine (eq_trans (Rsum_perm _ _ (Permutation_map F P)) _). f_equal. apply map_map.
Qed.

(** ** Boxes of the forward integrator *)

Lemma shrink_both n b d c : box_of_rank n b -> (d < n)%nat ->
  (in_box (Shrink b d (0, 1)) c <-> in_box b c /\ in_box b (Shift c d 1)).
Proof.
  intros Hb Hd. rewrite (shrink_spec n) by assumption. cbn [fst snd]. destruct Hb as [B1 B2].
  unfold in_box, inside. split.
  - intros (L & H1 & H2). unfold Shift. rewrite set_nth_length.
    split; (split; [congruence|split; [congruence|]]); intros r Hr.
    + destruct (Nat.eq_dec r d) as [->|Hne]; [lia|]. apply H2; lia.
    + rewrite nth_set_nth. destruct (Nat.eqb_spec r d) as [->|Hne]; cbn [andb].
      * destruct (Nat.ltb_spec d (length c)); unfold nthZ; lia.
      * apply H2; lia.
  - intros ((L1 & L2 & L3) & (M1 & M2 & M3)). split; [congruence|].
    unfold Shift in M3. rewrite set_nth_length in M3. split.
    + pose proof (L3 d ltac:(lia)). specialize (M3 d ltac:(lia)). rewrite nth_set_same in M3 by lia. unfold nthZ in M3. lia.
    + intros r Hr Hne. apply L3. lia.
Qed.

Lemma grow_both n b d c : box_of_rank n b -> (d < n)%nat -> length c = n ->
  (in_box (Grow b d (0, 1)) c /\ in_box (Grow b d (0, 1)) (Shift c d 1) <-> in_box b c).
Proof.
  intros Hb Hd Hl. rewrite <- (shrink_both n); [|apply grow_rank; assumption|assumption].
  destruct (grow_shrink n b d (0, 1) Hb Hd) as [E _]. rewrite E. reflexivity.
Qed.

Lemma intersect_rank n a b : box_of_rank n a -> box_of_rank n b -> box_of_rank n (Intersect a b).
Proof.
  intros [A1 A2] [B1 B2]. unfold Intersect. split; cbn [lower upper]; rewrite ?map2_length; rewrite ?map2_length; congruence.
Qed.

Lemma forward_cells n tile fbox d c : box_of_rank n tile -> box_of_rank n fbox -> (d < n)%nat ->
  (in_box (forward_cell_box tile fbox d) c <-> in_box tile c /\ in_box fbox c /\ in_box fbox (Shift c d 1)).
Proof.
  intros Ht Hf Hd. unfold forward_cell_box, enclosedCells, forward_flux_box, surroundingNodes.
  assert (box_of_rank n (Grow tile d (0, 1))) as Hg by (apply grow_rank; assumption).
  rewrite (shrink_both n); [|apply intersect_rank; assumption|assumption].
  rewrite !(intersect_spec n) by assumption. split.
  - intros ((A & B) & (C & D)). assert (length c = n) as L by (destruct B as (L & _); destruct Hf; congruence).
    split; [|split; assumption]. exact (proj1 (grow_both n tile d c Ht Hd L) (conj A C)).
  - intros (A & B & C). assert (length c = n) as L by (destruct B as (L & _); destruct Hf; congruence).
    destruct (proj2 (grow_both n tile d c Ht Hd L) A) as [A1 A2]. split; split; assumption.
Qed.

Lemma Shift_app c k d s : (d < length c)%nat -> Shift (c ++ [k]) d s = Shift c d s ++ [k].
Proof.
  intros H. unfold Shift, nthZ. rewrite app_nth1 by assumption. generalize (nth d c 0 + s). clear s.
  revert d H. induction c as [|x c IH]; intros d H z; [cbn in H; lia|]. destruct d; [reflexivity|].
  cbn [app set_nth]. f_equal. apply IH. cbn in H. lia.
Qed.

Lemma in_embed b n k c : in_box (Embed b (0, n)) (c ++ [k]) <-> (length c = length (lower b) -> length c = length (upper b) -> in_box b c /\ 0 <= k < n) /\ length c = length (lower b) /\ length c = length (upper b).
Proof.
  split.
  - intros H. assert (length c = length (lower b) /\ length c = length (upper b)) as [L1 L2].
    { destruct H as (A & B & _). cbn [Embed lower upper] in A, B. rewrite !app_length in A, B. cbn in A, B. lia. }
    split; [|split; assumption]. intros _ _. apply inside_app_last in H; [|symmetry; assumption]. exact H.
  - intros (H & L1 & L2). destruct (H L1 L2) as [A B]. apply inside_app_last; [symmetry; assumption|]. split; assumption.
Qed.

Lemma in_embed_split b n i : in_box (Embed b (0, n)) i -> length (lower b) = length (upper b) ->
  exists c k, i = c ++ [k] /\ in_box b c /\ 0 <= k < n.
Proof.
  intros H Hb. destruct (exists_last (l := i)) as (c & k & E).
  { intros ->. destruct H as (A & _). cbn [Embed lower] in A. rewrite app_length in A. cbn in A. lia. }
  exists c, k. split; [assumption|]. subst i. apply in_embed in H as (H & L1 & L2). apply H; assumption.
Qed.

Lemma embed_nonempty b n k c : in_box b c -> 0 <= k < n -> forall r, (r < S (length c))%nat ->
  nth r (lower (Embed b (0, n))) 0 < nth r (upper (Embed b (0, n))) 0.
Proof.
  intros H Hk r Hr. assert (in_box (Embed b (0, n)) (c ++ [k])) as (_ & _ & D).
  { apply in_embed. destruct H as (A & B & C). split; [|split; assumption]. intros _ _. split; [split; [|split]; assumption|assumption]. }
  specialize (D r). rewrite app_length in D. cbn [length] in D. lia.
Qed.

Lemma forward_fab n m state flux tile fbox n_cons dt dx dir :
  stored m (S n) state -> stored m (S n) flux -> apart state flux ->
  box_of_rank n tile -> box_of_rank n fbox -> (dir < n)%nat -> 0 < n_cons ->
  (forall c k, in_box tile c -> 0 <= k < n_cons -> in_box (pdv_box state) (c ++ [k])) ->
  (forall f k, in_box fbox f -> 0 <= k < n_cons -> in_box (pdv_box flux) (f ++ [k])) ->
  (exists c, in_box tile c /\ in_box fbox c /\ in_box fbox (Shift c dir 1)) ->
  exists m', ForwardIntegrator_fab m state flux tile fbox n_cons dt dx dir = Finished m' /\
    (forall c k, in_box tile c -> in_box fbox c -> in_box fbox (Shift c dir 1) -> 0 <= k < n_cons ->
       m' (pdv_at state (c ++ [k])) =
       Some (val m (pdv_at state (c ++ [k])) +
             dt / dx * (val m (pdv_at flux (c ++ [k])) - val m (pdv_at flux (Shift c dir 1 ++ [k]))))%R) /\
    (forall a, (forall c k, in_box tile c -> in_box fbox c -> in_box fbox (Shift c dir 1) -> 0 <= k < n_cons ->
                  a <> pdv_at state (c ++ [k])) -> m' a = m a).
Proof.
  intros (S1 & S2 & S3 & S4 & S5) (F1 & F2 & F3 & F4 & F5) Hap Ht Hf Hd Hn Hst Hfl (c0 & C1 & C2 & C3).
  set (cb := forward_cell_box tile fbox dir). set (ff := forward_flux_box tile fbox dir).
  assert (box_of_rank n ff) as Hff by (apply intersect_rank; [apply grow_rank; assumption|assumption]).
  assert (box_of_rank n cb) as Hcb.
  { unfold cb, forward_cell_box, enclosedCells, Shrink. destruct Hff as [X Y]. split; cbn [lower upper]; rewrite set_nth_length; assumption. }
  assert (forall c, in_box cb c <-> in_box tile c /\ in_box fbox c /\ in_box fbox (Shift c dir 1)) as Hcell
    by (intros; apply (forward_cells n); assumption).
  assert (in_box cb c0) as Hc0 by (apply Hcell; auto).
  assert (length c0 = n) as L0 by (destruct Hc0 as (X & _); destruct Hcb; congruence).
  set (B := Embed cb (0, n_cons)). set (BF := Embed ff (0, n_cons)).
  assert (box_of_rank (S n) B) as HB.
  { destruct Hcb as [X Y]. split; unfold B, Embed; cbn [lower upper]; rewrite app_length; cbn [length]; lia. }
  assert (box_of_rank (S n) BF) as HBF.
  { destruct Hff as [X Y]. split; unfold BF, Embed; cbn [lower upper]; rewrite app_length; cbn [length]; lia. }
  assert (box_of_rank (length (pdv_origin state)) B) as HB' by (rewrite S2; exact HB).
  assert (box_of_rank (length (pdv_origin flux)) BF) as HBF' by (rewrite F2; exact HBF).
  assert (pdv_box (Subview state B) = B) as EB.
  { apply subview_box; [assumption|assumption|]. rewrite S2, <- L0. intros r Hr.
    apply (embed_nonempty cb n_cons 0 c0 Hc0); [lia|assumption]. }
  assert (forall i, length i = S n -> pdv_at (Subview state B) i = pdv_at state i) as AS
    by (intros; apply subview_at; [assumption|assumption|rewrite S2; assumption]).
  assert (forall i, length i = S n -> pdv_at (Subview flux BF) i = pdv_at flux i) as AF
    by (intros; apply subview_at; [assumption|assumption|rewrite F2; assumption]).
  assert (forall i, in_box B i -> exists c k, i = c ++ [k] /\ in_box cb c /\ 0 <= k < n_cons /\ length c = n /\
             in_box (pdv_box state) i /\ in_box (pdv_box flux) i /\ in_box (pdv_box flux) (Shift i dir 1) /\
             Shift i dir 1 = Shift c dir 1 ++ [k]) as Hsplit.
  { intros i Hi. destruct (in_embed_split cb n_cons i Hi) as (c & k & E & Hc & Hk); [destruct Hcb; congruence|].
    exists c, k. assert (length c = n) as L by (destruct Hc as (X & _); destruct Hcb; congruence).
    pose proof (proj1 (Hcell c) Hc) as (T1 & T2 & T3).
    subst i. rewrite Shift_app by lia. split; [reflexivity|]. split; [assumption|]. split; [assumption|]. split; [assumption|].
    split; [apply Hst; assumption|]. split; [apply Hfl; assumption|]. split; [apply Hfl; assumption|reflexivity]. }
  assert (update_data_ok m (Subview state B) (Subview state B) (Subview flux BF) dir) as Hok.
  { split; rewrite EB.
    - intros i j Hi Hj. destruct (Hsplit i Hi) as (c & k & E & Hc & Hk & L & X1 & X2 & X3 & X4).
      destruct (Hsplit j Hj) as (c' & k' & E' & Hc' & Hk' & L' & Y1 & Y2 & Y3 & Y4).
      assert (length i = S n) as Li by (rewrite E, app_length; cbn; lia).
      assert (length j = S n) as Lj by (rewrite E', app_length; cbn; lia).
      rewrite !AS by assumption. rewrite !AF by (unfold Shift; rewrite ?set_nth_length; assumption).
      assert (pdv_at state j = pdv_at state i -> j = i) as Inj by (apply dense_at_injective; assumption).
      split; [exact Inj|]. split; [exact Inj|]. split; intros Hbad; symmetry in Hbad; revert Hbad; apply Hap; assumption.
    - intros i Hi. destruct (Hsplit i Hi) as (c & k & E & Hc & Hk & L & X1 & X2 & X3 & X4).
      assert (length i = S n) as Li by (rewrite E, app_length; cbn; lia).
      rewrite !AS by assumption. rewrite !AF by (unfold Shift; rewrite ?set_nth_length; assumption).
      split; [apply S5; assumption|]. split; [apply S5; assumption|]. split; apply F5; assumption. }
  destruct (update_seq_pointwise m (Subview state B) (Subview state B) (Subview flux BF) dt dx dir) as (m' & E & P1 & P2).
  { apply subview_ok; assumption. }
  { assumption. }
  rewrite EB in P1, P2. exists m'. split; [exact E|]. split.
  - intros c k T1 T2 T3 Hk. assert (in_box cb c) as Hc by (apply Hcell; auto).
    assert (in_box B (c ++ [k])) as Hi.
    { apply in_embed. destruct Hc as (A1 & A2 & A3). split; [|split; assumption]. intros _ _. split; [split; [|split]; assumption|assumption]. }
    specialize (P1 _ Hi). destruct (Hsplit _ Hi) as (c' & k' & E' & _ & _ & L & _ & _ & _ & X4).
    apply app_inj_tail in E' as [<- <-]. rewrite X4 in P1.
    assert (length (c ++ [k]) = S n) as Li by (rewrite app_length; cbn; lia).
    assert (length (Shift c dir 1 ++ [k]) = S n) as Li' by (unfold Shift; rewrite app_length, set_nth_length; cbn; lia).
    rewrite !AS in P1 by assumption. rewrite !AF in P1 by assumption. exact P1.
  - intros a Ha. apply P2. intros i Hi. destruct (Hsplit i Hi) as (c & k & E' & Hc & Hk & L & _).
    assert (length i = S n) as Li by (rewrite E', app_length; cbn; lia).
    rewrite AS by assumption. subst i. apply Hcell in Hc as (T1 & T2 & T3). apply Ha; assumption.
Qed.

(** The total over whole lines. *)
Lemma update_total m m' next prev fluxes dt dx dir cells :
  view_ok next -> (dir < length (pdv_origin next))%nat -> update_data_ok m next prev fluxes dir ->
  UpdateConservatively_seq m next prev fluxes dt dx dir = Finished m' ->
  whole_lines (pdv_box next) dir cells ->
  Rsum (map (fun c => val m' (pdv_at next c)) cells) =
  (Rsum (map (fun c => val m (pdv_at prev c)) cells) +
   dt / dx * (Rsum (map (fun c => val m (pdv_at fluxes c))
                        (filter (fun c => Z.eqb (nth dir c 0%Z) (nth dir (lower (pdv_box next)) 0%Z)) cells)) -
              Rsum (map (fun c => val m (pdv_at fluxes (Shift c dir 1)))
                        (filter (fun c => Z.eqb (nth dir c 0%Z) (nth dir (upper (pdv_box next)) 0%Z - 1)%Z) cells))))%R.
Proof.
  intros Hv Hd Hok E Hw. destruct (update_seq_pointwise m next prev fluxes dt dx dir Hv Hok) as (m1 & E1 & P1 & _).
  rewrite E in E1. injection E1 as <-.
  pose proof (telescope (pdv_box next) dir cells (fun c => val m (pdv_at fluxes c)) Hw Hd) as T.
  refine (eq_trans _ (f_equal (fun x => Rsum (map (fun c => val m (pdv_at prev c)) cells) + dt / dx * x)%R T)).
  cbv beta. rewrite <- Rsum_scal, <- Rsum_plus. f_equal. apply map_ext_in. intros c Hc.
  destruct Hw as (_ & Hb & _). unfold val at 1. rewrite (P1 c (Hb c Hc)). reflexivity.
Qed.
