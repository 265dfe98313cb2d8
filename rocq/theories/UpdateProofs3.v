(** Numeric fluxes: sequential and vectorised versions. *)
From Coq Require Import List ZArith Reals Lia Lra Bool Permutation.
From Verif Require Import ArrayModel ArraySpec ArrayProofs BoxProofs UpdateModel UpdateSpec UpdateProofs UpdateProofs2.
Import ListNotations.
Local Open Scope Z_scope.

Lemma Shift_Shift i dir a b : (dir < length i)%nat -> Shift (Shift i dir a) dir b = Shift i dir (a + b).
Proof.
  intros H. unfold Shift, nthZ. rewrite nth_set_same, set_nth_twice by assumption. f_equal. lia.
Qed.

Lemma stencil_pointers_job fluxes states dir width face : (dir < length face)%nat ->
  snd (flux_job fluxes states dir width face) = stencil_pointers states dir width face.
Proof.
  intros H. unfold stencil_pointers. cbn [flux_job snd]. apply flat_map_ext. intros i. apply map_ext. intros v.
  rewrite Shift_Shift by assumption. do 2 f_equal. lia.
Qed.

Lemma flat_map_const_length {A B} (f : A -> list B) n l :
  (forall x, length (f x) = n) -> length (flat_map f l) = (length l * n)%nat.
Proof. intros H. induction l as [|x l IH]; [reflexivity|]. cbn [flat_map length]. rewrite app_length, IH, H. lia. Qed.

Lemma flux_job_lengths fluxes states dir width face :
  length (fst (flux_job fluxes states dir width face)) = length fluxes /\
  length (snd (flux_job fluxes states dir width face)) = (2 * width * length states)%nat.
Proof.
  cbn [flux_job fst snd]. split; [apply map_length|].
  rewrite (flat_map_const_length _ (length states)) by (intros; apply map_length). rewrite seq_length. reflexivity.
Qed.

Lemma flux_seq_done K m f0 fluxes states dir width :
  (dir < length (lower (pdv_box f0)))%nat -> view_ok f0 ->
  (forall xs, length xs = (2 * width * length states)%nat -> length (K xs) = length (f0 :: fluxes)) ->
  let cells := loop_indices (lower (pdv_box f0)) (upper (pdv_box f0)) in
  let job_of := flux_job (f0 :: fluxes) states dir width in
  conflict_free (map job_of cells) -> jobs_allocated (map job_of cells) m ->
  exists m', ComputeNumericFluxes_seq K m (f0 :: fluxes) states dir width = Finished m' /\ jobs_done K (map job_of cells) m m'.
Proof.
  intros Hd Hv0 HK cells job_of Hc Ha. unfold ComputeNumericFluxes_seq, ForEachIndex. fold cells.
  assert (forall i, In i cells -> length i = length (lower (pdv_box f0))) as Hl.
  { intros i Hi. apply loop_indices_length in Hi; [assumption|].
    destruct (pdv_box_rank f0 Hv0). congruence. }
  destruct (seq_done K job_of cells m) as (m' & E & D); [|assumption|assumption|].
  - intros i m1 Hi. destruct (flux_job_lengths (f0 :: fluxes) states dir width i) as [L1 L2].
    unfold job_of. rewrite L1. apply HK. rewrite map_length. assumption.
  - exists m'. split; [|assumption]. rewrite <- E. apply fold_left_ext_in. intros o i Hi.
    destruct o as [m1| |]; [|reflexivity|reflexivity]. unfold seq_step, job_of.
    rewrite stencil_pointers_job by (rewrite Hl; assumption). cbn [flux_job fst]. reflexivity.
Qed.

Lemma plus_shift dir rel l k : length rel = length l -> (dir < length rel)%nat ->
  plus_index rel (Shift l dir k) = Shift (plus_index rel l) dir k.
Proof.
  revert l dir; induction rel as [|x rel IH]; intros [|y l] dir Hl Hd; cbn [length] in *; try lia.
  unfold Shift, nthZ in *. destruct dir as [|dir]; cbn [set_nth nth].
  - rewrite !plus_index_cons. cbn [set_nth nth]. f_equal. lia.
  - rewrite !plus_index_cons. cbn [set_nth nth]. f_equal. apply IH; lia.
Qed.

Section FluxSimd.
Context (rank : nat) (f0 : PatchDataView) (fluxes states : list PatchDataView) (dir width : nat).
Hypothesis Hf : Forall (strided_view rank) (f0 :: fluxes).
Hypothesis Hs : Forall (strided_view rank) states.
Hypothesis Hor : Forall (fun v => pdv_origin v = pdv_origin f0) fluxes.
Hypothesis Hdir : (dir < rank)%nat.
Hypothesis Hwidth : (1 <= width)%nat.
Hypothesis Hshape : flux_shape rank f0.

Let o := pdv_origin f0.
Let e := map_extents (md_map (pdv_span f0)).

Lemma f0_lengths : length o = rank /\ length e = rank.
Proof using Hf. pose proof (Forall_inv Hf) as (e1 & s & E & H1 & H2 & H3 & _). unfold o, e. rewrite E. auto. Qed.

Lemma map2_nth (a b : list Z) (f : Z -> Z -> Z) r : length a = length b -> (r < length a)%nat ->
  nth r (map2 f a b) 0 = f (nth r a 0) (nth r b 0).
Proof using Type. clear. intros. apply nth_map2; assumption. Qed.

Lemma stencil_view_at i v rel : (i < 2 * width)%nat -> strided_view rank v -> length rel = rank ->
  strided_view rank (stencil_view (pdv_box f0) dir width i v) /\
  md_at (pdv_span (stencil_view (pdv_box f0) dir width i v)) rel =
  pdv_at v (Shift (plus_index rel o) dir (Z.of_nat i - Z.of_nat width)).
Proof using All.
  intros Hi Hv Hl. destruct f0_lengths as [Lo Le]. destruct Hshape as (Hr & Hpos & _).
  assert (1 <= rank)%nat as Hrank by lia.
  assert (length (pdv_origin v) = rank) as Lv by (destruct Hv as (? & ? & ? & ? & ? & ? & _); assumption).
  assert (box_of_rank rank (pdv_box f0)) as Bf.
  { split; cbn [pdv_box lower upper]; fold o e; [assumption|]. rewrite map2_length; congruence. }
  set (cellbox := Grow (pdv_box f0) dir (Z.of_nat width, Z.of_nat width - 1)).
  assert (box_of_rank rank cellbox) as Bc by (apply grow_rank; assumption).
  assert (pdv_box (Subview v cellbox) = cellbox) as Eb.
  { apply subview_box; [eapply strided_ok; eassumption|rewrite Lv; assumption|].
    intros r Hrr. rewrite Lv in Hrr. specialize (Hpos r Hrr). unfold extent0 in Hpos. fold e in Hpos.
    unfold cellbox. cbn [Grow lower upper fst snd pdv_box]. fold o e. unfold nthZ. rewrite !nth_set_nth.
    rewrite map2_length by congruence. rewrite !map2_nth by lia.
    destruct (Nat.eqb_spec r dir) as [->|Hrd]; cbn [andb].
    - destruct (Nat.ltb_spec dir (length o)); [|lia]. destruct (Nat.ltb_spec dir (length e)); [|lia]. lia.
    - lia. }
  unfold stencil_view. fold cellbox. rewrite Eb.
  set (b2 := Shrink cellbox dir (Z.of_nat i, Z.of_nat (2 * width) - Z.of_nat i - 1)).
  assert (box_of_rank rank b2) as B2.
  { destruct Bc as [C1 C2]. split; cbn [b2 Shrink lower upper]; rewrite set_nth_length; assumption. }
  assert (strided_view rank (Subview v cellbox)) as S1 by (apply subview_strided; assumption).
  assert (strided_view rank (Subview (Subview v cellbox) b2)) as S2 by (apply subview_strided; assumption).
  split; [assumption|].
  assert (pdv_origin (Subview (Subview v cellbox) b2) = Shift o dir (Z.of_nat i - Z.of_nat width)) as Eo.
  { cbn [Subview pdv_origin]. unfold b2, cellbox. cbn [Shrink Grow lower fst snd pdv_box]. fold o.
    unfold Shift, nthZ. rewrite nth_set_same, set_nth_twice by lia. f_equal. lia. }
  rewrite md_at_pdv; [|rewrite Eo; unfold Shift; rewrite set_nth_length; congruence].
  rewrite Eo.
  assert (length (plus_index rel (Shift o dir (Z.of_nat i - Z.of_nat width))) = rank) as Lp.
  { rewrite plus_index_length; [assumption|]. unfold Shift. rewrite set_nth_length. congruence. }
  rewrite subview_at; [|eapply strided_ok; eassumption|cbn [Subview pdv_origin]; destruct Bc as [-> _]; assumption|].
  2:{ rewrite Lp. cbn [Subview pdv_origin]. destruct Bc as [-> _]. reflexivity. }
  rewrite subview_at; [|eapply strided_ok; eassumption|rewrite Lv; assumption|congruence].
  rewrite plus_shift; [reflexivity|congruence|lia].
Qed.

Let views := flat_map (fun i => map (stencil_view (pdv_box f0) dir width i) states) (seq 0 (2 * width)).

Lemma views_jobs rel : length rel = rank ->
  view_job (f0 :: fluxes) views rel = flux_job (f0 :: fluxes) states dir width (plus_index rel o).
Proof using All.
  intros Hl. unfold view_job, flux_job. f_equal.
  - apply map_ext_in. intros v Hv.
    assert (pdv_origin v = o) as E. { destruct Hv as [<-|Hv]; [reflexivity|]. pose proof Hor as Hor'. rewrite Forall_forall in Hor'. apply Hor'; assumption. }
    destruct f0_lengths as [Lo _]. rewrite md_at_pdv by (rewrite E; congruence). rewrite E. reflexivity.
  - unfold views. rewrite map_flat_map. apply flat_map_ext_in. intros i Hi. apply in_seq in Hi.
    rewrite map_map. pose proof Hs as Hs'. rewrite Forall_forall in Hs'. apply map_ext_in. intros v Hv.
    apply stencil_view_at; [lia|apply Hs'; assumption|assumption].
Qed.

Lemma flux_simd_done chunk kernel K stale :
  lanewise chunk (2 * width * length states) (length (f0 :: fluxes)) kernel K -> (1 <= chunk)%nat ->
  (forall n, (n <= chunk)%nat -> length (stale n) = (chunk - n)%nat) ->
  let cells := loop_indices (lower (pdv_box f0)) (upper (pdv_box f0)) in
  let job_of := flux_job (f0 :: fluxes) states dir width in
  conflict_free (map job_of cells) ->
  exists N, forall fuel m, (N < fuel)%nat -> jobs_allocated (map job_of cells) m ->
  exists m', ComputeNumericFluxes_simd fuel chunk kernel stale rank m (f0 :: fluxes) states dir width = Finished m' /\
    jobs_done K (map job_of cells) m m'.
Proof using All.
  intros Hlane Hch Hst cells job_of. destruct f0_lengths as [Lo Le].
  assert (map job_of cells = map (view_job (f0 :: fluxes) views) (loop_indices (repeat 0 rank) e)) as Ej.
  { unfold cells. cbn [pdv_box lower upper]. fold o e. rewrite loop_indices_translate by congruence. rewrite map_map, Le.
    apply map_ext_in. intros rel Hrel. symmetry. apply views_jobs.
    apply loop_indices_length in Hrel; [|rewrite repeat_length; congruence]. rewrite repeat_length in Hrel. assumption. }
  rewrite Ej. intros Hc.
  assert (length views = (2 * width * length states)%nat) as Lv.
  { unfold views. rewrite (flat_map_const_length _ (length states)) by (intros; apply map_length). rewrite seq_length. reflexivity. }
  rewrite <- Lv in Hlane.
  destruct (for_each_row_done chunk kernel K stale rank (f0 :: fluxes) views Hlane Hch Hst) with (e := e) as (N & HN).
  - cbn; lia.
  - apply Forall_app. split.
    + eapply Forall_impl; [|exact Hf]. intros v. apply strided_row.
    + apply Forall_forall. intros v Hv. unfold views in Hv. apply in_flat_map in Hv as (i & Hi & Hv).
      apply in_seq in Hi. apply in_map_iff in Hv as (w & <- & Hw). apply strided_row.
      pose proof Hs as Hs'. rewrite Forall_forall in Hs'.
      apply (stencil_view_at i w (repeat 0 rank)); [lia|apply Hs'; assumption|apply repeat_length].
  - intros v0 E0. injection E0 as <-. destruct Hshape as (Hr & Hpos & H2).
    pose proof (Hpos 0%nat ltac:(lia)) as P0. split; [|lia]. unfold extent0 in *. fold e in Hpos, H2, P0.
    destruct Hr as [Hr|[Hr|Hr]]; rewrite Hr in *; cbn [rows_shape]; fold e.
    + lia.
    + pose proof (Hpos 1%nat ltac:(lia)) as P1. specialize (H2 eq_refl).
      pose proof (Forall_inv Hf) as (e1 & s & E & H1 & Hs2 & _ & H4). unfold e in *. rewrite E in *.
      cbn [map_extents map_stride] in *. destruct e1 as [|x0 [|x1 [|]]]; try discriminate.
      destruct s as [|y0 [|y1 [|]]]; try discriminate. cbn [first_view_ok nth] in *. unfold nthZ in H2. cbn [nth] in H2. lia.
    + pose proof (Hpos 1%nat ltac:(lia)). pose proof (Hpos 2%nat ltac:(lia)). lia.
  - intros v0 E0. injection E0 as <-. reflexivity.
  - exact Hc.
  - exists N. intros fuel m Hfu Ha. destruct (HN fuel m Hfu Ha) as (m' & E & D). exists m'. split; [|assumption].
    exact E.
Qed.

End FluxSimd.
