(** Lemmas about the gradient detectors and cut cell tagging. *)
From Coq Require Import List ZArith Reals Lia Lra Bool.
From Verif Require Import ArrayModel ArraySpec ArrayProofs BoxProofs UpdateProofs UpdateProofs4 StableDtProofs TaggingModel TaggingSpec TaggingProofs.
Import ListNotations.
Local Open Scope Z_scope.

(** [d'] is [d] with bit 0 set exactly at the indices in [Q]. *)
Definition marks (Q : index -> Prop) (d d' : tags) : Prop :=
  forall k, (Q k /\ d' k = Z.lor (d k) 1) \/ (~ Q k /\ d' k = d k).

Lemma marks_id (Q : index -> Prop) d : (forall k, ~ Q k) -> marks Q d d.
Proof. intros H k. right. split; [apply H|reflexivity]. Qed.

Lemma marks_ext (Q Q' : index -> Prop) d d' : (forall k, Q k <-> Q' k) -> marks Q d d' -> marks Q' d d'.
Proof. intros H M k. destruct (M k) as [[A B]|[A B]]; [left|right]; (split; [|exact B]); rewrite <- H; exact A. Qed.

Lemma lor_idem1 v : Z.lor (Z.lor v 1) 1 = Z.lor v 1.
Proof. rewrite <- Z.lor_assoc. reflexivity. Qed.

Lemma marks_fold {A} (Q : A -> index -> Prop) (f : tags -> A -> tags) l :
  (forall x, In x l -> forall d, marks (Q x) d (f d x)) ->
  forall d, marks (fun k => exists x, In x l /\ Q x k) d (fold_left f l d).
Proof.
  induction l as [|x l IH]; intros H d.
  - apply marks_id. intros k (x & [] & _).
  - cbn [fold_left]. intros k.
    destruct (H x (or_introl eq_refl) d k) as [[A1 B1]|[A1 B1]];
    destruct (IH (fun y Hy => H y (or_intror Hy)) (f d x) k) as [[A2 B2]|[A2 B2]].
    + left. split; [exists x; split; [left; reflexivity|assumption]|]. rewrite B2, B1. apply lor_idem1.
    + left. split; [exists x; split; [left; reflexivity|assumption]|]. rewrite B2, B1. reflexivity.
    + left. destruct A2 as (y & Hy & Qy). split; [exists y; split; [right; assumption|assumption]|]. rewrite B2, B1. reflexivity.
    + right. split; [|rewrite B2, B1; reflexivity]. intros (y & [<- | Hy] & Qy); [contradiction|]. apply A2. exists y. auto.
Qed.

(** ** Comparisons *)

Lemma exceeds_spec tol a b : (0 <= tol)%R -> exceeds (relative_difference a b) tol = true <-> steep tol a b.
Proof.
  intros Ht. unfold exceeds, relative_difference, steep.
  pose proof (Rabs_pos a) as Pa. pose proof (Rabs_pos b) as Pb.
  destruct (Req_EM_T (Rabs a + Rabs b) 0) as [E|E].
  - split; [discriminate|]. intros H. exfalso. rewrite E in H.
    pose proof (Rabs_triang a (- b)) as T. rewrite Rabs_Ropp in T. unfold Rminus in H. lra.
  - assert (P : (0 < Rabs a + Rabs b)%R) by lra.
    destruct (Rlt_dec tol (Rabs (a - b) / (Rabs a + Rabs b))) as [H|H].
    + split; [intros _|reflexivity]. apply Rmult_lt_compat_r with (r := (Rabs a + Rabs b)%R) in H; [|assumption].
      replace (Rabs (a - b) / (Rabs a + Rabs b) * (Rabs a + Rabs b))%R with (Rabs (a - b)) in H by (field; assumption). lra.
    + split; [discriminate|]. intros Q. exfalso. apply H.
      apply Rmult_lt_reg_r with (r := (Rabs a + Rabs b)%R); [assumption|].
      replace (Rabs (a - b) / (Rabs a + Rabs b) * (Rabs a + Rabs b))%R with (Rabs (a - b)) by (field; assumption). lra.
Qed.

Lemma below_spec tol a b : below (relative_difference a b) tol = false <-> reaches tol a b.
Proof.
  unfold below, relative_difference, reaches.
  pose proof (Rabs_pos a) as Pa. pose proof (Rabs_pos b) as Pb.
  destruct (Req_EM_T (Rabs a + Rabs b) 0) as [E|E].
  - split; [intros _|reflexivity]. rewrite E. pose proof (Rabs_pos (a - b)). lra.
  - assert (P : (0 < Rabs a + Rabs b)%R) by lra.
    destruct (Rlt_dec (Rabs (a - b) / (Rabs a + Rabs b)) tol) as [H|H].
    + split; [discriminate|]. intros Q. exfalso. apply Rmult_lt_compat_r with (r := (Rabs a + Rabs b)%R) in H; [|assumption].
      replace (Rabs (a - b) / (Rabs a + Rabs b) * (Rabs a + Rabs b))%R with (Rabs (a - b)) in H by (field; assumption). lra.
    + split; [intros _|reflexivity]. apply Rnot_lt_ge in H.
      apply Rle_ge. apply Rge_le in H. apply Rmult_le_compat_r with (r := (Rabs a + Rabs b)%R) in H; [|lra].
      replace (Rabs (a - b) / (Rabs a + Rabs b) * (Rabs a + Rabs b))%R with (Rabs (a - b)) in H by (field; assumption). lra.
Qed.

Lemma not_steep_same tol a : (0 <= tol)%R -> ~ steep tol a a.
Proof.
  intros H. unfold steep. replace (a - a)%R with 0%R by ring. rewrite Rabs_R0. intros Q.
  pose proof (Rabs_pos a). assert (0 <= tol * (Rabs a + Rabs a))%R by (apply Rmult_le_pos; lra). lra.
Qed.

Definition cond_hit {S} (states : index -> S) (l m r : index) (cond : (S -> R) * R) : Prop :=
  steep (snd cond) (fst cond (states m)) (fst cond (states l)) \/ steep (snd cond) (fst cond (states m)) (fst cond (states r)).

Lemma detect_condition_marks {S} (states : index -> S) l m r t cond d : (0 <= snd cond)%R ->
  marks (fun k => k = t /\ cond_hit states l m r cond) d (detect_condition states l m r t cond d).
Proof.
  intros Ht. unfold detect_condition, cond_hit.
  set (xL := fst cond (states l)). set (xM := fst cond (states m)). set (xR := fst cond (states r)).
  pose proof (exceeds_spec (snd cond) xM xL Ht) as EL. pose proof (exceeds_spec (snd cond) xM xR Ht) as ER.
  assert (G : forall b : bool, (b = true <-> steep (snd cond) xM xL \/ steep (snd cond) xM xR) ->
     marks (fun k => k = t /\ (steep (snd cond) xM xL \/ steep (snd cond) xM xR)) d (set_tag d t (Z.lor (d t) (if b then 1 else 0)))).
  { intros b Hb k. destruct (list_eq_dec Z.eq_dec k t) as [-> | N].
    - rewrite set_tag_same. destruct b.
      + left. split; [split; [reflexivity|apply Hb; reflexivity]|reflexivity].
      + right. split; [intros [_ Q]; apply Hb in Q; discriminate|apply Z.lor_0_r].
    - rewrite set_tag_other by assumption. right. split; [intros [Q _]; contradiction|reflexivity]. }
  destruct (Req_EM_T xM xR) as [E1|E1]; [destruct (Req_EM_T xM xL) as [E2|E2]|]; cbn [orb].
  - apply marks_id. intros k [_ [Q|Q]].
    + rewrite <- E2 in Q. exact (not_steep_same _ _ Ht Q).
    + rewrite <- E1 in Q. exact (not_steep_same _ _ Ht Q).
  - apply G. rewrite orb_true_iff, EL, ER. reflexivity.
  - apply G. rewrite orb_true_iff, EL, ER. reflexivity.
Qed.

(** ** Neighbours *)

Lemma set_nth_nth l k v r : (k < length l)%nat -> nth r (set_nth l k v) 0 = if Nat.eqb r k then v else nth r l 0.
Proof.
  intros H. rewrite nth_set_nth. destruct (Nat.eqb_spec r k) as [-> | N]; cbn [andb]; [|reflexivity].
  destruct (Nat.ltb_spec k (length l)); [reflexivity|lia].
Qed.

Lemma neighbour_shift dir k i j : neighbour dir k i j <-> (dir < length i)%nat /\ j = Shift i dir k.
Proof.
  unfold neighbour, Shift. split.
  - intros (L & D & E & O). split; [assumption|]. apply nth_ext with (d := 0) (d' := 0).
    + rewrite set_nth_length. assumption.
    + intros r Hr. rewrite set_nth_nth by assumption. destruct (Nat.eqb_spec r dir) as [-> | N]; [exact E|apply O, N].
  - intros (D & ->). rewrite set_nth_length. split; [reflexivity|]. split; [assumption|]. split.
    + rewrite set_nth_nth, Nat.eqb_refl by assumption. reflexivity.
    + intros r Hr. rewrite set_nth_nth by assumption. apply Nat.eqb_neq in Hr. rewrite Hr. reflexivity.
Qed.

Lemma shrink_neighbours n b dir i : box_of_rank n b -> (dir < n)%nat ->
  in_box (Shrink b dir (1, 1)) i <->
  length i = n /\ in_box b (Shift i dir (-1)) /\ in_box b (Shift i dir 1).
Proof.
  intros Hb Hd. rewrite (shrink_spec n) by assumption. cbn [fst snd]. split.
  - intros (L & A & B). split; [assumption|].
    split; apply (in_box_spec n b _ Hb); rewrite shift_length; (split; [assumption|]);
      intros r Hr; unfold Shift, nthZ; rewrite set_nth_nth by lia; destruct (Nat.eqb_spec r dir) as [E | N];
      try (rewrite E in *; lia); apply B; assumption.
  - intros (L & A & B). split; [assumption|].
    pose proof (proj1 (in_box_spec n b _ Hb) A) as [_ A']. pose proof (proj1 (in_box_spec n b _ Hb) B) as [_ B'].
    split.
    + specialize (A' dir Hd). specialize (B' dir Hd). unfold Shift, nthZ in *.
      rewrite set_nth_nth, Nat.eqb_refl in A', B' by lia. lia.
    + intros r Hr N. specialize (A' r Hr). unfold Shift, nthZ in A'. rewrite set_nth_nth in A' by lia.
      apply Nat.eqb_neq in N. rewrite N in A'. assumption.
Qed.

Lemma embed_padded rank i t : (length i <= rank)%nat -> padded rank i t <-> t = EmbedInSpace rank i.
Proof.
  intros L. unfold padded, EmbedInSpace. split.
  - intros (A & _ & B & C). rewrite <- (firstn_skipn (length i) t), B. f_equal.
    apply nth_ext with (d := 0) (d' := 0).
    + rewrite skipn_length, repeat_length. lia.
    + intros r Hr. rewrite nth_repeat. rewrite skipn_length in Hr.
      transitivity (nth (length i + r) t 0); [|apply C; lia].
      assert (F : length (firstn (length i) t) = length i) by (apply firstn_length_le; lia).
      symmetry. rewrite <- (firstn_skipn (length i) t) at 1. rewrite app_nth2 by lia.
      f_equal. lia.
  - intros ->. split; [rewrite app_length, repeat_length; lia|]. split; [assumption|]. split.
    + rewrite firstn_app, firstn_all, Nat.sub_diag. cbn [firstn]. apply app_nil_r.
    + intros r Hr. rewrite app_nth2 by assumption. apply nth_repeat.
Qed.

Lemma embed_length rank i : (length i <= rank)%nat -> length (EmbedInSpace rank i) = rank.
Proof. intros H. unfold EmbedInSpace. rewrite app_length, repeat_length. lia. Qed.

Lemma embed_same i : EmbedInSpace (length i) i = i.
Proof. unfold EmbedInSpace. rewrite Nat.sub_diag. apply app_nil_r. Qed.

Lemma Shrink_length n b dir s : box_of_rank n b -> length (lower (Shrink b dir s)) = length (upper (Shrink b dir s)).
Proof. intros [A B]. unfold Shrink. cbn [lower upper]. rewrite !set_nth_length. congruence. Qed.

(** ** Scalar detectors *)

Lemma scalar_marks {S} (conds : conditions S) n tag_rank tagbox statebox states d :
  box_of_rank tag_rank tagbox -> box_of_rank n statebox -> (n <= tag_rank)%nat -> tolerances_ok conds ->
  marks (fun t => in_box tagbox t /\ exists i dir, length i = n /\ padded tag_rank i t /\ steep_in conds statebox states dir i)
    d (ScalarDetector conds tag_rank tagbox statebox states d).
Proof.
  intros Bt Bs Le Ht. pose proof Bs as [Ln _]. unfold ScalarDetector. rewrite Ln.
  eapply marks_ext; [|apply marks_fold with (Q := fun dir t =>
     exists mid, In mid (loop_indices (lower (Shrink statebox dir (1, 1))) (upper (Shrink statebox dir (1, 1)))) /\
       (in_box tagbox (EmbedInSpace tag_rank mid) /\ exists cond, In cond conds /\
         (t = EmbedInSpace tag_rank mid /\ cond_hit states (Shift mid dir (-1)) mid (Shift mid dir 1) cond)))].
  - intros t. split.
    + intros (dir & Hdir & mid & Hmid & Hin & cond & Hc & -> & Hit). split; [exact Hin|].
      apply in_seq in Hdir. apply loop_indices_in in Hmid; [|apply (Shrink_length n); assumption].
      apply (shrink_neighbours n) in Hmid; [|assumption|lia]. destruct Hmid as (L & NL & NR).
      exists mid, dir. split; [assumption|]. split; [apply embed_padded; [lia|reflexivity]|].
      exists (Shift mid dir (-1)), (Shift mid dir 1).
      split; [apply neighbour_shift; split; [lia|reflexivity]|]. split; [apply neighbour_shift; split; [lia|reflexivity]|].
      split; [assumption|]. split; [assumption|]. destruct cond as [p tol]. exists p, tol. split; assumption.
    + intros (Hin & i & dir & L & Pd & l & r & Nl & Nr & Il & Ir & p & tol & Hc & Hit).
      apply neighbour_shift in Nl as (D & ->). apply neighbour_shift in Nr as (_ & ->).
      apply embed_padded in Pd; [|lia]. exists dir. split; [apply in_seq; lia|]. exists i. split.
      * apply loop_indices_in; [apply (Shrink_length n); assumption|]. apply (shrink_neighbours n); [assumption|lia|].
        auto.
      * split; [rewrite <- Pd; exact Hin|]. exists (p, tol). split; [assumption|]. split; [assumption|exact Hit].
  - intros dir Hdir d1. unfold ForEachIndex. apply in_seq in Hdir.
    apply (marks_fold (fun mid t => in_box tagbox (EmbedInSpace tag_rank mid) /\ exists cond, In cond conds /\
         (t = EmbedInSpace tag_rank mid /\ cond_hit states (Shift mid dir (-1)) mid (Shift mid dir 1) cond))).
    intros mid Hmid d2. apply loop_indices_in in Hmid; [|apply (Shrink_length n); assumption].
    apply (shrink_neighbours n) in Hmid; [|assumption|lia]. destruct Hmid as (L & _).
    pose proof (contains_index_spec tag_rank tagbox (EmbedInSpace tag_rank mid) Bt (embed_length tag_rank mid ltac:(lia))) as C.
    destruct (ContainsIndex tagbox (EmbedInSpace tag_rank mid)) eqn:E.
    + eapply marks_ext; [|apply (marks_fold (fun cond t => t = EmbedInSpace tag_rank mid /\
         cond_hit states (Shift mid dir (-1)) mid (Shift mid dir 1) cond))].
      * intros t. split.
        -- intros (cond & H). split; [apply C; reflexivity|]. exists cond. exact H.
        -- intros (_ & H). exact H.
      * intros [p tol] Hc d3. apply detect_condition_marks. cbn [snd]. exact (Ht p tol Hc).
    + apply marks_id. intros k (Q & _). apply C in Q. discriminate.
Qed.

Lemma volumes_marks {S} (conds : conditions S) n tagbox statebox states volumes d :
  box_of_rank n tagbox -> box_of_rank n statebox -> tolerances_ok conds ->
  marks (fun t => in_box tagbox t /\ exists dir, steep_volumes_in conds statebox states volumes dir t)
    d (ScalarDetectorVolumes conds tagbox statebox states volumes d).
Proof.
  intros Bt Bs Ht. pose proof Bs as [Ln _]. unfold ScalarDetectorVolumes. rewrite Ln.
  eapply marks_ext; [|apply marks_fold with (Q := fun dir t =>
     exists mid, In mid (loop_indices (lower (Shrink statebox dir (1, 1))) (upper (Shrink statebox dir (1, 1)))) /\
       (in_box tagbox mid /\ (0 < volumes (Shift mid dir (-1)))%R /\ (0 < volumes mid)%R /\ (0 < volumes (Shift mid dir 1))%R /\
         exists cond, In cond conds /\
         (t = mid /\ cond_hit states (Shift mid dir (-1)) mid (Shift mid dir 1) cond)))].
  - intros t. split.
    + intros (dir & Hdir & mid & Hmid & Hin & V1 & V2 & V3 & cond & Hc & -> & Hit). split; [exact Hin|].
      apply in_seq in Hdir. apply loop_indices_in in Hmid; [|apply (Shrink_length n); assumption].
      apply (shrink_neighbours n) in Hmid; [|assumption|lia]. destruct Hmid as (L & NL & NR).
      exists dir. exists (Shift mid dir (-1)), (Shift mid dir 1).
      split; [apply neighbour_shift; split; [lia|reflexivity]|]. split; [apply neighbour_shift; split; [lia|reflexivity]|].
      split; [assumption|]. split; [assumption|]. split; [assumption|]. split; [assumption|]. split; [assumption|].
      destruct cond as [p tol]. exists p, tol. split; assumption.
    + intros (Hin & dir & l & r & Nl & Nr & Il & Ir & V1 & V2 & V3 & p & tol & Hc & Hit).
      apply neighbour_shift in Nl as (D & ->). apply neighbour_shift in Nr as (_ & ->).
      assert (L : length t = n) by (apply (in_box_spec n tagbox t Bt); assumption).
      exists dir. split; [apply in_seq; lia|]. exists t. split.
      * apply loop_indices_in; [apply (Shrink_length n); assumption|]. apply (shrink_neighbours n); [assumption|lia|]. auto.
      * split; [exact Hin|]. split; [assumption|]. split; [assumption|]. split; [assumption|].
        exists (p, tol). split; [assumption|]. split; [reflexivity|exact Hit].
  - intros dir Hdir d1. unfold ForEachIndex. apply in_seq in Hdir.
    apply (marks_fold (fun mid t => in_box tagbox mid /\ (0 < volumes (Shift mid dir (-1)))%R /\ (0 < volumes mid)%R /\ (0 < volumes (Shift mid dir 1))%R /\
         exists cond, In cond conds /\
         (t = mid /\ cond_hit states (Shift mid dir (-1)) mid (Shift mid dir 1) cond))).
    intros mid Hmid d2. apply loop_indices_in in Hmid; [|apply (Shrink_length n); assumption].
    apply (shrink_neighbours n) in Hmid; [|assumption|lia]. destruct Hmid as (L & _).
    pose proof (contains_index_spec n tagbox mid Bt L) as C.
    destruct (ContainsIndex tagbox mid) eqn:E.
    + destruct (Rlt_dec 0 (volumes (Shift mid dir (-1)))) as [V1|V1]; cbn [andb].
      2:{ apply marks_id. intros k (_ & Q & _). contradiction. }
      destruct (Rlt_dec 0 (volumes mid)) as [V2|V2]; cbn [andb].
      2:{ apply marks_id. intros k (_ & _ & Q & _). contradiction. }
      destruct (Rlt_dec 0 (volumes (Shift mid dir 1))) as [V3|V3]; cbn [andb].
      2:{ apply marks_id. intros k (_ & _ & _ & Q & _). contradiction. }
      eapply marks_ext; [|apply (marks_fold (fun cond t => t = mid /\
         cond_hit states (Shift mid dir (-1)) mid (Shift mid dir 1) cond))].
      * intros t. split.
        -- intros (cond & H). split; [apply C; reflexivity|]. split; [assumption|]. split; [assumption|].
           split; [assumption|]. exists cond. exact H.
        -- intros (_ & _ & _ & _ & H). exact H.
      * intros [p tol] Hc d3. apply detect_condition_marks. cbn [snd]. exact (Ht p tol Hc).
    + apply marks_id. intros k (Q & _). apply C in Q. discriminate.
Qed.

Lemma marks_cases (Q : index -> Prop) d d' : marks Q d d' -> forall k, (Q k -> d' k = Z.lor (d k) 1) /\ (~ Q k -> d' k = d k).
Proof. intros M k. destruct (M k) as [[A B]|[A B]]; split; intros; auto; contradiction. Qed.

Lemma lor1_nonzero v : Z.lor v 1 <> 0.
Proof. intros H. apply Z.lor_eq_0_iff in H as [_ H]. discriminate. Qed.

(** ** Vectorised detector *)

Definition lane_hit {S} (conds : conditions S) (a b c : S) : Prop :=
  exists p tol, In (p, tol) conds /\ (reaches tol (p b) (p a) \/ reaches tol (p b) (p c)).

Lemma lane_tag_spec {S} (conds : conditions S) (a b c : S) : forall v,
  (lane_hit conds a b c /\ lane_tag conds a b c v = 1) \/ (~ lane_hit conds a b c /\ lane_tag conds a b c v = v).
Proof.
  unfold lane_tag, lane_hit. induction conds as [|[p tol] conds IH]; intros v.
  - right. split; [intros (q & tol & [] & _)|reflexivity].
  - cbn [fold_left]. unfold lane_condition at 2 4. cbn [fst snd].
    pose proof (below_spec tol (p b) (p a)) as BL. pose proof (below_spec tol (p b) (p c)) as BR.
    set (v1 := if below (relative_difference (p b) (p c)) tol then _ else 1).
    assert (H1 : (reaches tol (p b) (p a) \/ reaches tol (p b) (p c)) /\ v1 = 1 \/
                 ~ (reaches tol (p b) (p a) \/ reaches tol (p b) (p c)) /\ v1 = v).
    { unfold v1. destruct (below (relative_difference (p b) (p c)) tol).
      - destruct (below (relative_difference (p b) (p a)) tol).
        + right. split; [|reflexivity]. intros [Q|Q]; [apply BL in Q|apply BR in Q]; discriminate.
        + left. split; [left; apply BL; reflexivity|reflexivity].
      - left. split; [right; apply BR; reflexivity|reflexivity]. }
    clearbody v1.
    destruct (IH v1) as [[(q & tol' & Hq & Hr) E]|[N E]].
    + left. split; [exists q, tol'; split; [right; assumption|assumption]|exact E].
    + rewrite E. destruct H1 as [[Hr ->]|[Hr ->]].
      * left. split; [exists p, tol; split; [left; reflexivity|assumption]|reflexivity].
      * right. split; [|reflexivity]. intros (q & tol' & [Q|Q] & Hq).
        -- injection Q as -> ->. contradiction.
        -- apply N. exists q, tol'. auto.
Qed.

Lemma store_lanes_in p w lanes t k : p <= k < p + w -> store_lanes p w lanes t k = lanes (k - p).
Proof.
  intros H. unfold store_lanes. replace ((p <=? k) && (k <? p + w)) with true; [reflexivity|].
  symmetry. apply andb_true_iff. split; [apply Z.leb_le|apply Z.ltb_lt]; lia.
Qed.

Lemma store_lanes_out p w lanes t k : ~ (p <= k < p + w) -> store_lanes p w lanes t k = t k.
Proof.
  intros H. unfold store_lanes. destruct ((p <=? k) && (k <? p + w)) eqn:E; [|reflexivity].
  apply andb_true_iff in E as [E1 E2]. apply Z.leb_le in E1. apply Z.ltb_lt in E2. lia.
Qed.

Lemma row_chunks_outside {S} (conds : conditions S) w s fuel : 1 <= w -> forall n pR tp sM sR t k,
  0 <= n -> ~ (tp <= k < tp + n) -> row_chunks fuel conds w n s pR tp sM sR t k = t k.
Proof.
  intros Hw. induction fuel as [|fuel IH]; intros n pR tp sM sR t k Hn Hk; [reflexivity|]. cbn [row_chunks].
  destruct (Z.leb_spec w n) as [L|L].
  - rewrite IH by lia. apply store_lanes_out. lia.
  - apply store_lanes_out. lia.
Qed.

(** Cells of the first chunk are compared with their neighbours. *)
Lemma row_first_chunk {S} (conds : conditions S) w n (s : Z -> S) t k : 1 <= w -> 0 <= n -> 0 <= k < n -> k < w ->
  ArrayDetectorRow conds w n s t k = lane_tag conds (s (k - 1)) (s k) (s (k + 1)) (t k).
Proof.
  intros Hw Hn Hk Hkw. unfold ArrayDetectorRow. cbn [row_chunks].
  destruct (Z.leb_spec w n) as [L|L].
  - rewrite row_chunks_outside by lia. rewrite store_lanes_in by lia.
    rewrite !Z.sub_0_r. replace (-1 + k) with (k - 1) by lia. replace (1 + k) with (k + 1) by lia. reflexivity.
  - rewrite store_lanes_in by lia.
    rewrite !Z.sub_0_r. replace (-1 + k) with (k - 1) by lia. replace (1 + k) with (k + 1) by lia. reflexivity.
Qed.

Lemma row_outside {S} (conds : conditions S) w n (s : Z -> S) t k : 1 <= w -> 0 <= n -> ~ (0 <= k < n) ->
  ArrayDetectorRow conds w n s t k = t k.
Proof. intros. unfold ArrayDetectorRow. apply row_chunks_outside; lia. Qed.

(** If every comparison has the same result, every cell of the row gets it. *)
Lemma row_uniform {S} (conds : conditions S) w (s : Z -> S) (G : Z -> Z) :
  1 <= w -> (forall a b c v, lane_tag conds (s a) (s b) (s c) v = G v) ->
  forall n t k, 0 <= k < n -> ArrayDetectorRow conds w n s t k = G (t k).
Proof.
  intros Hw H.
  assert (L : forall fuel n pR tp sM sR t k, 0 <= n -> n < Z.of_nat fuel -> (forall j, exists a, sM j = s a) -> (forall j, exists a, sR j = s a) ->
     tp <= k < tp + n -> row_chunks fuel conds w n s pR tp sM sR t k = G (t k)).
  { induction fuel as [|fuel IH]; intros n pR tp sM sR t k Hn Hf HM HR Hk; [lia|]. cbn [row_chunks].
    destruct (Z.leb_spec w n) as [Lw|Lw].
    - destruct (Z_lt_le_dec k (tp + w)) as [A|A].
      + rewrite row_chunks_outside by lia. rewrite store_lanes_in by lia.
        destruct (HM (k - tp)) as (a & ->). destruct (HR (k - tp)) as (b & ->). rewrite H.
        f_equal. f_equal. lia.
      + rewrite IH; [|lia|lia|assumption|intros j; exists (pR + j); reflexivity|lia].
        f_equal. apply store_lanes_out. lia.
    - rewrite store_lanes_in by lia. rewrite H. f_equal. f_equal. lia. }
  intros n t k Hk. unfold ArrayDetectorRow. apply L; try lia.
  - intros j. eexists. reflexivity.
  - intros j. eexists. reflexivity.
Qed.

(** The patch is processed row by row. *)
Definition row_step {S} (conds : conditions S) (w x0 n : Z) (states : index -> S) (d : tags) (outer : index) : tags :=
  let t := ArrayDetectorRow conds w n (fun k => states (x0 + k :: outer)) (fun k => d (x0 + k :: outer)) in
  fun i => match i with
           | x :: o => if list_eq_dec Z.eq_dec o outer then t (x - x0) else d i
           | [] => d i
           end.

Lemma rows_skip {S} (conds : conditions S) w x0 n states l : forall d x o, ~ In o l ->
  fold_left (row_step conds w x0 n states) l d (x :: o) = d (x :: o).
Proof.
  induction l as [|a l IH]; intros d x o H; [reflexivity|]. cbn [fold_left].
  rewrite IH by (intros Q; apply H; right; assumption). unfold row_step.
  destruct (list_eq_dec Z.eq_dec o a) as [-> |]; [|reflexivity]. exfalso. apply H. left. reflexivity.
Qed.

Lemma rows_hit {S} (conds : conditions S) w x0 n states l : NoDup l -> forall d x o, In o l ->
  fold_left (row_step conds w x0 n states) l d (x :: o) =
  ArrayDetectorRow conds w n (fun k => states (x0 + k :: o)) (fun k => d (x0 + k :: o)) (x - x0).
Proof.
  induction 1 as [|a l Ha ND IH]; intros d x o Ho; [destruct Ho|]. cbn [fold_left].
  destruct Ho as [<- | Ho].
  - rewrite rows_skip by assumption. unfold row_step. destruct (list_eq_dec Z.eq_dec a a); [reflexivity|congruence].
  - rewrite IH by assumption.
    assert (E : (fun k : Z => row_step conds w x0 n states d a (x0 + k :: o)) = (fun k : Z => row_step conds w x0 n states d a (x0 + k :: o))) by reflexivity.
    assert (N : o <> a) by (intros ->; contradiction).
    assert (F : forall k, row_step conds w x0 n states d a (x0 + k :: o) = d (x0 + k :: o)).
    { intros k. unfold row_step. destruct (list_eq_dec Z.eq_dec o a); [contradiction|reflexivity]. }
    unfold row_step. destruct (list_eq_dec Z.eq_dec o a); [contradiction|]. reflexivity.
Qed.

Lemma sorted_nodup l : Sorted.StronglySorted colex_lt l -> NoDup l.
Proof.
  induction 1 as [|x l Hs IH Hf]; constructor; [|assumption].
  intros Q. rewrite Forall_forall in Hf. specialize (Hf x Q). revert Hf. clear.
  induction x as [|a x IH]; simpl; [auto|]. intros [H|[_ H]]; [apply IH, H|lia].
Qed.

Lemma array_patch {S} (conds : conditions S) w n tagbox states d x o :
  box_of_rank (Datatypes.S n) tagbox -> let x0 := nth 0 (lower tagbox) 0 in let m := nth 0 (upper tagbox) 0 - x0 in
  1 <= w -> 0 <= m ->
  (in_box tagbox (x :: o) -> ArrayDetector conds w tagbox states d (x :: o) =
     ArrayDetectorRow conds w m (fun k => states (x0 + k :: o)) (fun k => d (x0 + k :: o)) (x - x0)) /\
  (~ in_box tagbox (x :: o) -> ArrayDetector conds w tagbox states d (x :: o) = d (x :: o)).
Proof.
  intros [L U] x0 m Hw Hm.
  change (ArrayDetector conds w tagbox states d) with (fold_left (row_step conds w x0 m states) (loop_indices (tl (lower tagbox)) (tl (upper tagbox))) d).
  destruct tagbox as [[|l ls] [|u us]]; try discriminate. cbn [lower upper tl nth] in *.
  assert (LE : length ls = length us) by (cbn in L, U; lia).
  assert (ND : NoDup (loop_indices ls us)) by (apply sorted_nodup, loop_indices_sorted).
  assert (IN : in_box (mkBox (l :: ls) (u :: us)) (x :: o) <-> (l <= x < u /\ In o (loop_indices ls us))).
  { unfold in_box. cbn [lower upper]. rewrite inside_cons, loop_indices_in by assumption. split.
    - intros (k & o' & E & Hk & Ho). injection E as -> ->. auto.
    - intros [Hk Ho]. exists x, o. auto. }
  rewrite IN. subst m x0. cbn [nth] in *. split.
  - intros [Hx Ho]. apply rows_hit; assumption.
  - intros N. destruct (in_dec (list_eq_dec Z.eq_dec) o (loop_indices ls us)) as [Ho|Ho].
    + rewrite rows_hit by assumption. rewrite row_outside; [f_equal; f_equal; lia|lia|lia|].
      intros Q. apply N. split; [lia|assumption].
    + apply rows_skip, Ho.
Qed.

(** ** Cut cells *)

Lemma cutcells n tagbox volumebox volumes d : box_of_rank n tagbox -> box_of_rank n volumebox -> forall i,
  (in_box tagbox i /\ in_box volumebox i /\ (0 < volumes i < 1)%R -> TagCutCells tagbox volumebox volumes d i = 1) /\
  (~ (in_box tagbox i /\ in_box volumebox i /\ (0 < volumes i < 1)%R) -> TagCutCells tagbox volumebox volumes d i = d i).
Proof.
  intros B1 B2 i. unfold TagCutCells, ForEachIndex.
  assert (IN : In i (loop_indices (lower (Intersect tagbox volumebox)) (upper (Intersect tagbox volumebox))) <-> in_box tagbox i /\ in_box volumebox i).
  { rewrite loop_indices_in.
    - apply (intersect_spec n); assumption.
    - destruct B1, B2. unfold Intersect, map2. cbn [lower upper]. rewrite !map_length, !combine_length, !map_length, !combine_length. lia. }
  revert IN. generalize (loop_indices (lower (Intersect tagbox volumebox)) (upper (Intersect tagbox volumebox))).
  intros l IN.
  assert (G : forall l d, (In i l /\ (0 < volumes i < 1)%R ->
       fold_left (fun (d : tags) i => if (if Rlt_dec 0 (volumes i) then true else false) && (if Rlt_dec (volumes i) 1 then true else false) then set_tag d i 1 else d) l d i = 1) /\
     (~ (In i l /\ (0 < volumes i < 1)%R) ->
       fold_left (fun (d : tags) i => if (if Rlt_dec 0 (volumes i) then true else false) && (if Rlt_dec (volumes i) 1 then true else false) then set_tag d i 1 else d) l d i = d i)).
  { clear. induction l as [|x l IH]; intros d.
    - split; [intros [[] _]|reflexivity].
    - cbn [fold_left].
      match goal with |- context [fold_left _ l ?e] => set (d1 := e) end.
      destruct (IH d1) as [A B].
      destruct (list_eq_dec Z.eq_dec i x) as [<- | N].
      + split.
        * intros [_ V]. destruct (in_dec (list_eq_dec Z.eq_dec) i l) as [I|I]; [apply A; auto|].
          rewrite B by tauto. unfold d1. destruct (Rlt_dec 0 (volumes i)); [|lra]. destruct (Rlt_dec (volumes i) 1); [|lra].
          cbn [andb]. apply set_tag_same.
        * intros Q. rewrite B by (intros [I V]; apply Q; split; [right; assumption|assumption]).
          unfold d1. destruct (Rlt_dec 0 (volumes i)); [|reflexivity]. destruct (Rlt_dec (volumes i) 1); [|reflexivity].
          exfalso. apply Q. split; [left; reflexivity|lra].
      + assert (D1 : d1 i = d i) by (unfold d1; destruct (_ && _); [apply set_tag_other; assumption|reflexivity]).
        split.
        * intros [[Q|Q] V]; [congruence|]. apply A. auto.
        * intros Q. rewrite B; [exact D1|]. intros [I V]. apply Q. split; [right; assumption|assumption]. }
  destruct (G l d) as [A B]. split.
  - intros (I1 & I2 & V). apply A. split; [apply IN; auto|assumption].
  - intros Q. apply B. intros [I V]. apply Q. apply IN in I as [I1 I2]. auto.
Qed.
