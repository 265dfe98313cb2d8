(** Properties C45, C46, C47 and C69: tagging methods. *)
From Coq Require Import List ZArith Reals Lia Lra Bool.
From Verif Require Import ArrayModel ArraySpec ArrayProofs BoxProofs UpdateProofs4 StableDtProofs TaggingModel TaggingSpec TaggingProofs TaggingProofs2.
Import ListNotations.
Local Open Scope Z_scope.

(** * C45: tag buffer in two dimensions *)

(** After buffering a cell of the patch is tagged iff it was tagged or lies in the half open neighbourhood
    [i-w, i+w) x [j-w, j+w) of a cell tagged 1 or 2 before; the cells newly set are no sources.  Existing tags
    stay tagged, nothing outside the patch changes.
    Missing: cells exactly [w] cells above a tagged cell, see [C45_upper_side_refuted]. *)
Theorem C45_buffer_partial : forall w nx ny d k, valid_tags d ->
  (inside [0; 0] [nx; ny] k ->
     (tagged (TagBuffer2 w nx ny d) k <->
      tagged d k \/ exists c, inside [0; 0] [nx; ny] c /\ (d c = 1 \/ d c = 2) /\ within_half_open w c k)) /\
  (~ inside [0; 0] [nx; ny] k -> TagBuffer2 w nx ny d k = d k).
Proof.
  intros w nx ny d k V. destruct (buffer2 w nx ny d V k) as [A B]. split.
  - intros Hk. unfold tagged.
    destruct (existsb (fun c => src12 (d c) && (if index_in_dec k (nb2 w nx ny c) then true else false)) (loop_indices [0; 0] [nx; ny])) eqn:E.
    + apply existsb_exists in E as (c & Hc & E). apply andb_true_iff in E as [E1 E2].
      apply loop_indices_in in Hc; [|reflexivity]. unfold src12 in E1. apply orb_true_iff in E1. rewrite !Z.eqb_eq in E1.
      assert (W : within_half_open w c k).
      { pose proof Hc as Hc'. apply inside2 in Hc' as (i & j & -> & _). destruct (index_in_dec k (nb2 w nx ny [i; j])) as [N|]; [|discriminate].
        apply nb2_in in N. apply N. }
      rewrite A by (exists c; auto). specialize (V k). split.
      * intros _. right. exists c. auto.
      * intros _. lia.
    + assert (Q : forall c, inside [0; 0] [nx; ny] c -> d c = 1 \/ d c = 2 -> ~ within_half_open w c k).
      { intros c Hc Sc W. rewrite <- not_true_iff_false in E. apply E. apply existsb_exists. exists c.
        split; [apply loop_indices_in; [reflexivity|assumption]|]. apply andb_true_iff. split.
        - unfold src12. apply orb_true_iff. rewrite !Z.eqb_eq. assumption.
        - destruct (index_in_dec k (nb2 w nx ny c)) as [|N]; [reflexivity|]. exfalso. apply N.
          pose proof Hc as Hc'. apply inside2 in Hc' as (i & j & -> & _). apply nb2_in. auto. }
      rewrite B by (intros c Hc Sc _; apply Q; assumption). split; [auto|].
      intros [H|(c & Hc & Sc & W)]; [assumption|]. exfalso. exact (Q c Hc Sc W).
  - intros Hk. apply B. intros c _ _ Q. contradiction.
Qed.
Print Assumptions C45_buffer_partial.

(** In terms of the buffer width: everything in the patch closer than [w] to a tagged cell is tagged, and
    everything newly tagged is at most [w] away from a tagged cell. *)
Theorem C45_distance_partial : forall w nx ny d k, valid_tags d -> inside [0; 0] [nx; ny] k ->
  (forall c, inside [0; 0] [nx; ny] c -> d c = 1 \/ d c = 2 -> within (w - 1) c k -> tagged (TagBuffer2 w nx ny d) k) /\
  (tagged (TagBuffer2 w nx ny d) k -> ~ tagged d k -> exists c, inside [0; 0] [nx; ny] c /\ tagged d c /\ within w c k).
Proof.
  intros w nx ny d k V Hk. destruct (C45_buffer_partial w nx ny d k V) as [A _]. specialize (A Hk). split.
  - intros c Hc Sc [L W]. apply A. right. exists c. split; [assumption|]. split; [assumption|]. split; [assumption|].
    intros r Hr. specialize (W r Hr). lia.
  - intros T N. apply A in T. destruct T as [T|(c & Hc & Sc & L & W)]; [contradiction|].
    exists c. split; [assumption|]. split; [unfold tagged; lia|]. split; [assumption|].
    intros r Hr. specialize (W r Hr). lia.
Qed.
Print Assumptions C45_distance_partial.

Definition one_tag (c : index) : index -> Z := fun i => if list_eq_dec Z.eq_dec i c then 1 else 0.

Lemma one_tag_valid c : valid_tags (one_tag c).
Proof. intros i. unfold one_tag. destruct (list_eq_dec Z.eq_dec i c); lia. Qed.

(** In every patch, for every width: with a single tag the cell [w] cells to the right of it, which is within
    the buffer width, stays untagged. *)
Theorem C45_upper_side_refuted : forall w nx ny i j, 0 < w -> 0 <= i -> i + w < nx -> 0 <= j < ny ->
  inside [0; 0] [nx; ny] [i + w; j] /\ within w [i; j] [i + w; j] /\ tagged (one_tag [i; j]) [i; j] /\
  ~ tagged (TagBuffer2 w nx ny (one_tag [i; j])) [i + w; j].
Proof.
  intros w nx ny i j Hw Hi Hx Hj.
  assert (I : inside [0; 0] [nx; ny] [i + w; j]) by (apply inside2; exists (i + w), j; split; [reflexivity|lia]).
  split; [assumption|]. split.
  { split; [reflexivity|]. intros [|[|r]] Hr; cbn [nth length] in *; lia. }
  split.
  { unfold tagged, one_tag. destruct (list_eq_dec Z.eq_dec [i; j] [i; j]); [lia|congruence]. }
  intros T. apply (C45_buffer_partial w nx ny _ _ (one_tag_valid [i; j])) in T; [|assumption].
  destruct T as [T|(c & _ & Sc & W)].
  - apply T. unfold one_tag. destruct (list_eq_dec Z.eq_dec [i + w; j] [i; j]) as [E|]; [|reflexivity].
    injection E as E. lia.
  - unfold one_tag in Sc. destruct (list_eq_dec Z.eq_dec c [i; j]) as [-> |]; [|lia].
    apply within_half_open2 in W. lia.
Qed.
Print Assumptions C45_upper_side_refuted.

(** A 6 x 5 patch with one tag at (2,2) and width 2: (0,0) gets tagged, (4,2) does not, (3,3) does. *)
Example C45_example : let d := TagBuffer2 2 6 5 (one_tag [2; 2]) in
  d [0; 0] = 3 /\ d [2; 2] = 2 /\ d [3; 3] = 3 /\ d [4; 2] = 0 /\ d [5; 4] = 0.
Proof. vm_compute. repeat split. Qed.

(** * C46: tag buffer in one and three dimensions *)

(** 1d: the loop touches a cell outside of the patch exactly if the first cell it looks at is tagged. *)
Theorem C46_1d_outside_refuted : forall w n d, 0 <= w ->
  (TagBuffer1 w n d = None <-> 1 <= w /\ 2 * w < n /\ d [w] = 1).
Proof. exact buffer1_undefined. Qed.
Print Assumptions C46_1d_outside_refuted.

(** 1d: with a single tag the cells tagged afterwards are i-w-1 .. i-2 and i .. i+w-1, for every width.  So the
    left neighbour of the tagged cell stays untagged and a cell further away than [w] is tagged. *)
Theorem C46_1d_neighbours_refuted : forall w n d i, 1 <= w -> w < i < n - w -> d [i] = 1 ->
  (forall k, 0 <= k < n -> k <> i -> d [k] = 0) ->
  exists d', TagBuffer1 w n d = Some d' /\
    (forall k, 0 <= k < n -> (tagged d' [k] <-> i <= k < i + w \/ i - w - 1 <= k < i - 1)) /\
    ~ tagged d' [i - 1] /\ tagged d' [i - w - 1].
Proof.
  intros w n d i Hw Hi E Z0. destruct (buffer1_single w n d i Hw Hi E Z0) as (d' & A & B).
  exists d'. split; [exact A|]. split; [exact B|]. split.
  - intros T. apply B in T; lia.
  - apply B; lia.
Qed.
Print Assumptions C46_1d_neighbours_refuted.

(** 1d: an existing tag (value 2, as left by an earlier buffering) is removed; a cell next to two tagged
    cells stays untagged because it is set and reset. *)
Theorem C46_1d_removal_refuted :
  (exists w n d d' k, valid_tags d /\ TagBuffer1 w n d = Some d' /\ 0 <= k < n /\ tagged d [k] /\ ~ tagged d' [k]) /\
  (exists w n d d' k i j, valid_tags d /\ TagBuffer1 w n d = Some d' /\ 0 <= k < n /\
     d [i] = 1 /\ d [j] = 1 /\ i <> j /\ Z.abs (k - i) <= w + 1 /\ Z.abs (k - j) <= w + 1 /\ ~ tagged d' [k] /\
     exists e, TagBuffer1 w n (one_tag [i]) = Some e /\ tagged e [k]).
Proof.
  split.
  - exists 2, 8, (fun i => if list_eq_dec Z.eq_dec i [3] then 1 else if list_eq_dec Z.eq_dec i [4] then 2 else 0).
    eexists; exists 4. split; [|split; [reflexivity|]].
    + intros i. destruct (list_eq_dec Z.eq_dec i [3]); [lia|]. destruct (list_eq_dec Z.eq_dec i [4]); lia.
    + split; [lia|]. split; [vm_compute; discriminate|]. intros T. apply T. vm_compute. reflexivity.
  - exists 2, 9, (fun i => if list_eq_dec Z.eq_dec i [3] then 1 else if list_eq_dec Z.eq_dec i [4] then 1 else 0).
    eexists; exists 1, 3, 4. split; [|split; [reflexivity|]].
    + intros i. destruct (list_eq_dec Z.eq_dec i [3]); [lia|]. destruct (list_eq_dec Z.eq_dec i [4]); lia.
    + split; [lia|]. split; [reflexivity|]. split; [reflexivity|]. split; [lia|]. split; [lia|]. split; [lia|]. split.
      * intros T. apply T. vm_compute. reflexivity.
      * eexists. split; [reflexivity|]. vm_compute. discriminate.
Qed.
Print Assumptions C46_1d_removal_refuted.

(** 1d, what holds: if the tags are 0 and 1 and the first looked-at cell is not tagged (no access outside the
    patch), tagged cells stay tagged and cells further than [w]+1 from every tagged cell do not change.
    Missing: cells near a tag are tagged. *)
Theorem C46_1d_partial : forall w n d, 0 <= w -> (forall k, 0 <= k < n -> d [k] = 0 \/ d [k] = 1) ->
  (1 <= w -> d [w] <> 1) ->
  exists d', TagBuffer1 w n d = Some d' /\
  (forall k, 0 <= k < n -> d [k] = 1 -> d' [k] = 1) /\
  (forall k, 0 <= k < n -> (forall i, 0 <= i < n -> d [i] = 1 -> w + 1 < Z.abs (k - i)) -> d' [k] = d [k]).
Proof.
  intros w n d Hw ZO H. destruct (TagBuffer1 w n d) as [d'|] eqn:E.
  - exists d'. split; [reflexivity|]. apply buffer1_kept; assumption.
  - apply buffer1_undefined in E as (A & B & C); [|assumption]. exfalso. apply (H A C).
Qed.
Print Assumptions C46_1d_partial.

(** 3d, what holds: existing tags keep their value and nothing outside the patch changes. *)
Theorem C46_3d_partial : forall w l0 l1 l2 u0 u1 u2 d k, valid_tags d -> 0 <= w ->
  let d' := TagBuffer3 w (mkBox [l0; l1; l2] [u0; u1; u2]) d in
  (tagged d k -> d' k = d k) /\ (~ inside [l0; l1; l2] [u0; u1; u2] k -> d' k = d k) /\
  (forall c, inside [l0 + w; l1 + w; l2 + w] [u0 - w; u1 - w; u2 - w] c -> within_half_open w c k -> tagged d' k).
Proof.
  intros w l0 l1 l2 u0 u1 u2 d k V Hw d'. destruct (buffer3 w l0 l1 l2 u0 u1 u2 d V k) as [A B].
  fold d' in A, B.
  assert (D : forall c, inside [l0 + w; l1 + w; l2 + w] [u0 - w; u1 - w; u2 - w] c ->
     {within_half_open w c k} + {~ within_half_open w c k}).
  { intros c _. unfold within_half_open. destruct (Nat.eq_dec (length k) (length c)) as [L|L]; [|right; tauto].
    destruct (forallb (fun r => (nth r c 0 - w <=? nth r k 0) && (nth r k 0 <? nth r c 0 + w)) (seq 0 (length c))) eqn:E.
    - left. split; [assumption|]. intros r Hr. rewrite forallb_forall in E. specialize (E r ltac:(apply in_seq; lia)).
      apply andb_true_iff in E as [E1 E2]. apply Z.leb_le in E1. apply Z.ltb_lt in E2. lia.
    - right. intros [_ Q]. rewrite <- not_true_iff_false in E. apply E. apply forallb_forall. intros r Hr.
      apply in_seq in Hr. specialize (Q r ltac:(lia)). apply andb_true_iff. split; [apply Z.leb_le|apply Z.ltb_lt]; lia. }
  assert (X : (exists c, inside [l0 + w; l1 + w; l2 + w] [u0 - w; u1 - w; u2 - w] c /\ within_half_open w c k) \/
     (forall c, inside [l0 + w; l1 + w; l2 + w] [u0 - w; u1 - w; u2 - w] c -> ~ within_half_open w c k)).
  { destruct (existsb (fun c => if index_in_dec k (nb3 w c) then true else false) (loop_indices [l0 + w; l1 + w; l2 + w] [u0 - w; u1 - w; u2 - w])) eqn:E.
    - left. apply existsb_exists in E as (c & Hc & E). apply loop_indices_in in Hc; [|reflexivity]. exists c. split; [assumption|].
      destruct (index_in_dec k (nb3 w c)) as [N|]; [|discriminate]. pose proof Hc as Hc'. apply inside3 in Hc' as (x & y & z & -> & _).
      unfold nb3, nthZ in N. cbn [nth] in N. apply loop_indices_in in N; [|reflexivity]. apply inside3 in N as (p & q & r & -> & N).
      apply within_half_open3. lia.
    - right. intros c Hc W. rewrite <- not_true_iff_false in E. apply E. apply existsb_exists. exists c.
      split; [apply loop_indices_in; [reflexivity|assumption]|].
      destruct (index_in_dec k (nb3 w c)) as [|N]; [reflexivity|]. exfalso. apply N.
      pose proof Hc as Hc'. apply inside3 in Hc' as (x & y & z & -> & _). unfold nb3, nthZ. cbn [nth].
      apply loop_indices_in; [reflexivity|]. pose proof (proj1 W) as L. destruct k as [|p [|q [|r [|]]]]; try discriminate L.
      apply within_half_open3 in W. apply inside3. exists p, q, r. split; [reflexivity|]. lia. }
  split; [|split].
  - intros T. destruct X as [X|X]; [rewrite A by assumption|apply B, X]. specialize (V k). unfold tagged in T. lia.
  - intros N. apply B. intros c Hc W. apply N. pose proof Hc as Hc'. apply inside3 in Hc' as (x & y & z & -> & Hx & Hy & Hz).
    pose proof (proj1 W) as L. destruct k as [|p [|q [|r [|]]]]; try discriminate L.
    apply within_half_open3 in W. apply inside3. exists p, q, r. split; [reflexivity|]. lia.
  - intros c Hc W. unfold tagged. rewrite A by (exists c; auto). specialize (V k). lia.
Qed.
Print Assumptions C46_3d_partial.

(** 3d: cells are tagged although there is no tag at all, on every patch with more than 2w cells in each
    direction. *)
Theorem C46_3d_untagged_refuted : forall w l0 l1 l2 u0 u1 u2, 1 <= w ->
  2 * w < u0 - l0 -> 2 * w < u1 - l1 -> 2 * w < u2 - l2 ->
  forall c, inside [l0 + w; l1 + w; l2 + w] [u0 - w; u1 - w; u2 - w] c ->
  tagged (TagBuffer3 w (mkBox [l0; l1; l2] [u0; u1; u2]) (fun _ => 0)) c.
Proof.
  intros w l0 l1 l2 u0 u1 u2 Hw H0 H1 H2 c Hc.
  apply (C46_3d_partial w l0 l1 l2 u0 u1 u2 (fun _ => 0) c) with (c := c).
  - intros i. lia.
  - lia.
  - assumption.
  - split; [reflexivity|]. intros r Hr. lia.
Qed.
Print Assumptions C46_3d_untagged_refuted.

(** 1d: nine cells, width 2, one tag at 4: the tags afterwards; 3d: five cells in each direction. *)
Example C46_example :
  (match TagBuffer1 2 9 (one_tag [4]) with
   | Some d => map (fun k => d [k]) [0; 1; 2; 3; 4; 5; 6; 7; 8] = [0; 2; 2; 0; 1; 2; 0; 0; 0]
   | None => False end) /\
  TagBuffer1 2 9 (one_tag [2]) = None /\
  TagBuffer3 1 (mkBox [0; 0; 0] [3; 3; 3]) (fun _ => 0) [0; 1; 1] = 2 /\
  (2 * 1 < 3 - 0 /\ inside [0 + 1; 0 + 1; 0 + 1] [3 - 1; 3 - 1; 3 - 1] [1; 1; 1]).
Proof.
  split; [vm_compute; reflexivity|]. split; [vm_compute; reflexivity|]. split; [vm_compute; reflexivity|].
  split; [lia|]. apply inside3. exists 1, 1, 1. split; [reflexivity|]. lia.
Qed.

(** * C47: gradient detection *)

(** Scalar version, every rank of the states and the tags, every boxes: the tag of a cell of the patch of tags
    is set (bit 0, everything else kept) iff for some direction both neighbours have data and the relative
    difference to one of them exceeds the tolerance of some condition.  No other tag changes. *)
Theorem C47_scalar : forall S (conds : list ((S -> R) * R)) n tag_rank tagbox statebox states d,
  box_of_rank tag_rank tagbox -> box_of_rank n statebox -> (n <= tag_rank)%nat -> tolerances_ok conds ->
  forall t,
  let found := in_box tagbox t /\ exists i dir, length i = n /\ padded tag_rank i t /\ steep_in conds statebox states dir i in
  let d' := ScalarDetector conds tag_rank tagbox statebox states d in
  (found -> d' t = Z.lor (d t) 1) /\ (~ found -> d' t = d t) /\ (tagged d' t <-> tagged d t \/ found).
Proof.
  intros S conds n tag_rank tagbox statebox states d Bt Bs Le Ht t found d'.
  pose proof (scalar_marks conds n tag_rank tagbox statebox states d Bt Bs Le Ht t) as M.
  fold d' in M. cbn beta in M. fold found in M. clearbody found d'. unfold tagged.
  destruct M as [[A B]|[A B]]; rewrite B.
  - split; [reflexivity|]. split; [contradiction|]. split; [auto|]. intros _. apply lor1_nonzero.
  - split; [contradiction|]. split; [reflexivity|]. tauto.
Qed.
Print Assumptions C47_scalar.

(** The version for cut cells: additionally the three cells must have positive volume fractions. *)
Theorem C47_volumes : forall S (conds : list ((S -> R) * R)) n tagbox statebox states volumes d,
  box_of_rank n tagbox -> box_of_rank n statebox -> tolerances_ok conds ->
  forall t,
  let found := in_box tagbox t /\ exists dir, steep_volumes_in conds statebox states volumes dir t in
  let d' := ScalarDetectorVolumes conds tagbox statebox states volumes d in
  (found -> d' t = Z.lor (d t) 1) /\ (~ found -> d' t = d t) /\ (tagged d' t <-> tagged d t \/ found).
Proof.
  intros S conds n tagbox statebox states volumes d Bt Bs Ht t found d'.
  pose proof (volumes_marks conds n tagbox statebox states volumes d Bt Bs Ht t) as M.
  fold d' in M. cbn beta in M. fold found in M. clearbody found d'. unfold tagged.
  destruct M as [[A B]|[A B]]; rewrite B.
  - split; [reflexivity|]. split; [contradiction|]. split; [auto|]. intros _. apply lor1_nonzero.
  - split; [contradiction|]. split; [reflexivity|]. tauto.
Qed.
Print Assumptions C47_volumes.

(** Vectorised version, every rank and number of lanes: a cell among the first [w] cells of its row is tagged
    iff for some condition the relative difference to its left or right neighbour in direction X reaches the
    tolerance (comparing two zeros counts); other cells outside the patch do not change.
    Missing: cells behind the first [w] of a row, other directions, two zeros, see the refutations. *)
Theorem C47_vectorised_partial : forall S (conds : list ((S -> R) * R)) w n tagbox states d x o,
  box_of_rank (Datatypes.S n) tagbox -> nth 0 (lower tagbox) 0 <= nth 0 (upper tagbox) 0 -> 1 <= w ->
  let d' := ArrayDetector conds w tagbox states d in
  let found := exists p tol, In (p, tol) conds /\
    (reaches tol (p (states (x :: o))) (p (states (x - 1 :: o))) \/ reaches tol (p (states (x :: o))) (p (states (x + 1 :: o)))) in
  (in_box tagbox (x :: o) -> x < nth 0 (lower tagbox) 0 + w ->
     (found -> d' (x :: o) = 1) /\ (~ found -> d' (x :: o) = d (x :: o))) /\
  (~ in_box tagbox (x :: o) -> d' (x :: o) = d (x :: o)).
Proof.
  intros S conds w n tagbox states d x o B M W d' found.
  destruct (array_patch conds w n tagbox states d x o B W ltac:(lia)) as [A1 A2]. fold d' in A1, A2.
  split; [|exact A2]. intros I Hx.
  pose proof (proj1 (in_box_spec (Datatypes.S n) tagbox _ B) I) as [_ C]. specialize (C O ltac:(lia)). cbn [nth] in C.
  rewrite (A1 I). rewrite row_first_chunk by lia.
  replace (nth 0 (lower tagbox) 0 + (x - nth 0 (lower tagbox) 0 - 1)) with (x - 1) by lia.
  replace (nth 0 (lower tagbox) 0 + (x - nth 0 (lower tagbox) 0 + 1)) with (x + 1) by lia.
  replace (nth 0 (lower tagbox) 0 + (x - nth 0 (lower tagbox) 0)) with x by lia.
  destruct (lane_tag_spec conds (states (x - 1 :: o)) (states (x :: o)) (states (x + 1 :: o)) (d (x :: o))) as [[H ->]|[H ->]].
  - split; [reflexivity|]. intros Q. contradiction.
  - split; [|reflexivity]. intros Q. contradiction.
Qed.
Print Assumptions C47_vectorised_partial.

(** In one dimension, for rows of at most [w] cells, both versions tag the same cells if no comparison hits
    its tolerance exactly and no two neighbours are both zero.  Missing: longer rows, more dimensions. *)
Theorem C47_agreement_partial : forall S (conds : list ((S -> R) * R)) w lo hi states d x,
  1 <= w -> lo <= hi <= lo + w -> tolerances_ok conds ->
  (forall y, lo - 1 <= y < hi -> clear_cut conds (states [y + 1]) (states [y])) ->
  lo <= x < hi ->
  (tagged (ArrayDetector conds w (mkBox [lo] [hi]) states d) [x] <->
   tagged (ScalarDetector conds 1 (mkBox [lo] [hi]) (mkBox [lo - 1] [hi + 1]) states d) [x]).
Proof.
  intros S conds w lo hi states d x W H Ht CC Hx.
  assert (I : in_box (mkBox [lo] [hi]) [x]).
  { split; [reflexivity|]. split; [reflexivity|]. intros [|r] Hr; cbn [nth length lower upper] in *; lia. }
  destruct (C47_vectorised_partial S conds w O (mkBox [lo] [hi]) states d x []) as [A _];
    [split; reflexivity|cbn [nth lower upper]; lia|assumption|].
  specialize (A I ltac:(cbn [nth lower]; lia)).
  pose proof (C47_scalar S conds 1 1 (mkBox [lo] [hi]) (mkBox [lo - 1] [hi + 1]) states d) as B.
  specialize (B ltac:(split; reflexivity) ltac:(split; reflexivity) ltac:(lia) Ht [x]). cbv zeta in B.
  destruct B as (_ & _ & B). rewrite B. clear B.
  assert (E : forall p tol, In (p, tol) conds -> forall u v, u = [v + 1] /\ lo - 1 <= v < hi ->
     (reaches tol (p (states u)) (p (states [v])) <-> steep tol (p (states u)) (p (states [v])))).
  { intros p tol Hp u v [-> Hv]. destruct (CC v Hv p tol Hp) as [P N]. unfold reaches, steep. lra. }
  assert (SYM : forall tol a b, steep tol a b <-> steep tol b a).
  { intros tol a b. unfold steep. rewrite Rabs_minus_sym. rewrite (Rplus_comm (Rabs a)). reflexivity. }
  assert (SYR : forall tol a b, reaches tol a b <-> reaches tol b a).
  { intros tol a b. unfold reaches. rewrite Rabs_minus_sym. rewrite (Rplus_comm (Rabs a)). reflexivity. }
  assert (F : (exists p tol, In (p, tol) conds /\ (reaches tol (p (states [x])) (p (states [x - 1])) \/ reaches tol (p (states [x])) (p (states [x + 1]))))
     <-> (in_box (mkBox [lo] [hi]) [x] /\ exists i dir, length i = 1%nat /\ padded 1 i [x] /\ steep_in conds (mkBox [lo - 1] [hi + 1]) states dir i)).
  { split.
    - intros (p & tol & Hp & Q). split; [assumption|]. exists [x], O. split; [reflexivity|]. split.
      { split; [reflexivity|]. split; [cbn; lia|]. split; [reflexivity|]. intros [|[|r]] Hr; cbn in *; try reflexivity; lia. }
      exists [x - 1], [x + 1].
      split; [split; [reflexivity|]; split; [cbn; lia|]; split; [cbn; lia|]; intros [|[|r]] Hr; cbn; congruence|].
      split; [split; [reflexivity|]; split; [cbn; lia|]; split; [cbn; lia|]; intros [|[|r]] Hr; cbn; congruence|].
      split; [split; [reflexivity|]; split; [reflexivity|]; intros [|r] Hr; cbn [nth length lower upper] in *; lia|].
      split; [split; [reflexivity|]; split; [reflexivity|]; intros [|r] Hr; cbn [nth length lower upper] in *; lia|].
      exists p, tol. split; [assumption|]. destruct Q as [Q|Q].
      + left. apply (E p tol Hp [x] (x - 1)); [split; [f_equal; lia|lia]|assumption].
      + right. apply SYM. apply (E p tol Hp [x + 1] x); [split; [reflexivity|lia]|apply SYR; assumption].
    - intros (_ & i & dir & L & (_ & _ & P & _) & l & r & Nl & Nr & _ & _ & p & tol & Hp & Q).
      rewrite L in P. cbn [firstn] in P. subst i.
      apply neighbour_shift in Nl as (D & ->). apply neighbour_shift in Nr as (_ & ->). cbn [length] in D.
      replace dir with O in * by lia. unfold Shift, nthZ in Q. cbn [nth set_nth] in Q.
      exists p, tol. split; [assumption|]. destruct Q as [Q|Q].
      + left. apply (E p tol Hp [x] (x - 1)); [split; [f_equal; lia|lia]|]. replace (x - 1) with (x + -1) by lia. assumption.
      + right. apply SYR. apply (E p tol Hp [x + 1] x); [split; [reflexivity|lia]|apply SYM; assumption]. }
  rewrite <- F. unfold tagged. destruct A as [A1 A2].
  set (FF := exists p tol, _) in *.
  assert (DEC : FF \/ ~ FF).
  { destruct (lane_tag_spec conds (states [x - 1]) (states [x]) (states [x + 1]) 0) as [[Q _]|[Q _]]; [left|right]; exact Q. }
  destruct DEC as [Q|Q].
  - rewrite (A1 Q). split; [auto|]. intros _. lia.
  - rewrite (A2 Q). tauto.
Qed.
Print Assumptions C47_agreement_partial.

(** For every number of lanes from 3 on there is a row of two chunks in which the vectorised version misses a
    cell: the relative difference between cell w+1 and its left neighbour is 1/3, the tolerance 1/4. *)
Theorem C47_long_rows_refuted : forall w, 3 <= w -> exists (s : index -> R),
  let conds := [((fun x : R => x), (1 / 4)%R)] in
  steep (1 / 4) (s [w + 1]) (s [w]) /\
  ArrayDetector conds w (mkBox [0] [2 * w]) s (fun _ => 0) [w + 1] = 0 /\
  tagged (ScalarDetector conds 1 (mkBox [0] [2 * w]) (mkBox [-1] [2 * w + 1]) s (fun _ => 0)) [w + 1].
Proof.
  intros w Hw. pose (s := fun i : index => if Z.eqb (nth 0 i 0 mod w) 0 then 2%R else 1%R). exists s. intros conds.
  assert (S0 : s [w] = 2%R) by (unfold s; cbn [nth]; rewrite Z.mod_same by lia; reflexivity).
  assert (S1 : s [w + 1] = 1%R).
  { unfold s; cbn [nth]. replace (w + 1) with (1 + 1 * w) by lia. rewrite Z.mod_add by lia. rewrite Z.mod_small by lia. reflexivity. }
  assert (ST : steep (1 / 4) (s [w + 1]) (s [w])).
  { rewrite S0, S1. unfold steep. rewrite (Rabs_right 1), (Rabs_right 2), (Rabs_left (1 - 2)) by lra. lra. }
  split; [exact ST|].
  assert (I : in_box (mkBox [0] [2 * w]) [w + 1]).
  { split; [reflexivity|]. split; [reflexivity|]. intros [|r] Hr; cbn [nth length lower upper] in *; lia. }
  split.
  - destruct (array_patch conds w 0 (mkBox [0] [2 * w]) s (fun _ => 0) (w + 1) []) as [A _];
      [split; reflexivity|lia|cbn [nth lower upper]; lia|].
    rewrite (A I). cbn [nth lower upper]. rewrite !Z.sub_0_r. unfold ArrayDetectorRow.
    replace (Datatypes.S (Z.to_nat (2 * w))) with (Datatypes.S (Datatypes.S (Datatypes.S (Z.to_nat (2 * w) - 2)))) by lia.
    remember (Datatypes.S (Z.to_nat (2 * w) - 2)) as m. cbn [row_chunks].
    destruct (Z.leb_spec w (2 * w)) as [_|Q]; [|lia]. destruct (Z.leb_spec w (2 * w - w)) as [_|Q]; [|lia].
    rewrite row_chunks_outside by lia. rewrite store_lanes_in by lia.
    replace (w + 1 - (0 + w)) with 1 by lia. rewrite store_lanes_out by lia.
    assert (V : forall k, 0 < k mod w -> s [k] = 1%R).
    { intros k Hk. unfold s. cbn [nth]. destruct (Z.eqb_spec (k mod w) 0); [lia|reflexivity]. }
    rewrite (V (0 + (0 + 1))), (V (0 + (1 + 1))), (V (0 + (1 + w + 1))).
    + destruct (lane_tag_spec conds 1%R 1%R 1%R 0) as [[(p & tol & [Q|[]] & H) _]|[_ ->]]; [|reflexivity].
      injection Q as <- <-. exfalso. unfold reaches in H. replace (1 - 1)%R with 0%R in H by ring.
      rewrite Rabs_R0, (Rabs_right 1) in H by lra. lra.
    + replace (0 + (1 + w + 1)) with (2 + 1 * w) by lia. rewrite Z.mod_add, Z.mod_small by lia. lia.
    + rewrite Z.mod_small by lia. lia.
    + rewrite Z.mod_small by lia. lia.
  - apply (C47_scalar R conds 1 1 (mkBox [0] [2 * w]) (mkBox [-1] [2 * w + 1]) s (fun _ => 0)); try (split; reflexivity); [lia| |].
    + intros p tol [Q|[]]. injection Q as <- <-. lra.
    + right. split; [exact I|]. exists [w + 1], O. split; [reflexivity|]. split.
      { split; [reflexivity|]. split; [cbn; lia|]. split; [reflexivity|]. intros [|[|r]] Hr; cbn [length nth] in *; try reflexivity; lia. }
      exists [w], [w + 2].
      split; [split; [reflexivity|]; split; [cbn; lia|]; split; [cbn [nth]; lia|]; intros [|[|r]] Hr; cbn; congruence|].
      split; [split; [reflexivity|]; split; [cbn; lia|]; split; [cbn [nth]; lia|]; intros [|[|r]] Hr; cbn; congruence|].
      split; [split; [reflexivity|]; split; [reflexivity|]; intros [|r] Hr; cbn [nth length lower upper] in *; lia|].
      split; [split; [reflexivity|]; split; [reflexivity|]; intros [|r] Hr; cbn [nth length lower upper] in *; lia|].
      exists (fun x : R => x), (1 / 4)%R. split; [left; reflexivity|]. left. exact ST.
Qed.
Print Assumptions C47_long_rows_refuted.

(** Data which only depend on the other directions are never tagged by the vectorised version, however much
    they vary, for every rank, patch, number of lanes and positive tolerances. *)
Theorem C47_other_directions_refuted : forall (conds : list ((R -> R) * R)) w n tagbox (g : index -> R) d x o,
  box_of_rank (Datatypes.S n) tagbox -> nth 0 (lower tagbox) 0 <= nth 0 (upper tagbox) 0 -> 1 <= w ->
  (forall p tol, In (p, tol) conds -> (0 < tol)%R /\ forall j, p (g j) <> 0%R) ->
  ArrayDetector conds w tagbox (fun i => g (tl i)) d (x :: o) = d (x :: o).
Proof.
  intros conds w n tagbox g d x o B M W H.
  destruct (array_patch conds w n tagbox (fun i => g (tl i)) d x o B W ltac:(lia)) as [A1 A2].
  assert (DEC : in_box tagbox (x :: o) \/ ~ in_box tagbox (x :: o)).
  { destruct B as [B1 B2]. destruct (Nat.eq_dec (length (x :: o)) (Datatypes.S n)) as [L|L].
    - pose proof (contains_index_spec (Datatypes.S n) tagbox (x :: o) (conj B1 B2) L) as C.
      destruct (ContainsIndex tagbox (x :: o)); [left; apply C; reflexivity|right; intros Q; apply C in Q; discriminate].
    - right. intros Q. apply (in_box_spec (Datatypes.S n) tagbox _ (conj B1 B2)) in Q as [Q _]. contradiction. }
  destruct DEC as [I|I]; [|apply A2, I]. rewrite (A1 I). cbn [tl].
  pose proof (proj1 (in_box_spec (Datatypes.S n) tagbox _ B) I) as [_ C]. specialize (C O ltac:(lia)). cbn [nth] in C.
  rewrite (row_uniform conds w (fun _ => g o) (fun v => v)).
  - f_equal. f_equal. lia.
  - assumption.
  - intros _ _ _ v. destruct (lane_tag_spec conds (g o) (g o) (g o) v) as [[(p & tol & Hp & Q) _]|[_ ->]]; [|reflexivity].
    exfalso. destruct (H p tol Hp) as [T N]. specialize (N o). apply Rabs_pos_lt in N.
    assert (reaches tol (p (g o)) (p (g o))) as R by (destruct Q; assumption).
    unfold reaches in R. replace (p (g o) - p (g o))%R with 0%R in R by ring. rewrite Rabs_R0 in R.
    assert (0 < tol * (Rabs (p (g o)) + Rabs (p (g o))))%R by (apply Rmult_lt_0_compat; lra). lra.
  - lia.
Qed.
Print Assumptions C47_other_directions_refuted.

(** If all values are zero the vectorised version tags every cell, the scalar version none. *)
Theorem C47_zeros_refuted : forall tol w lo hi x, (0 < tol)%R -> 1 <= w -> lo <= x < hi ->
  let conds := [((fun x : R => x), tol)] in
  ArrayDetector conds w (mkBox [lo] [hi]) (fun _ => 0%R) (fun _ => 0) [x] = 1 /\
  ScalarDetector conds 1 (mkBox [lo] [hi]) (mkBox [lo - 1] [hi + 1]) (fun _ => 0%R) (fun _ => 0) [x] = 0.
Proof.
  intros tol w lo hi x T W Hx conds.
  assert (I : in_box (mkBox [lo] [hi]) [x]).
  { split; [reflexivity|]. split; [reflexivity|]. intros [|r] Hr; cbn [nth length lower upper] in *; lia. }
  split.
  - destruct (array_patch conds w 0 (mkBox [lo] [hi]) (fun _ => 0%R) (fun _ => 0) x []) as [A _];
      [split; reflexivity|lia|cbn [nth lower upper]; lia|].
    rewrite (A I). cbn [nth lower upper]. rewrite (row_uniform conds w (fun _ => 0%R) (fun v => 1)); [reflexivity|assumption| |lia].
    intros _ _ _ v. destruct (lane_tag_spec conds 0%R 0%R 0%R v) as [[_ ->]|[N _]]; [reflexivity|].
    exfalso. apply N. exists (fun x : R => x), tol. split; [left; reflexivity|]. left. unfold reaches.
    replace (0 - 0)%R with 0%R by ring. rewrite Rabs_R0. lra.
  - destruct (C47_scalar R conds 1 1 (mkBox [lo] [hi]) (mkBox [lo - 1] [hi + 1]) (fun _ => 0%R) (fun _ => 0)) with (t := [x]) as (_ & B & _);
      try (split; reflexivity); [lia| |].
    + intros p tol' [Q|[]]. injection Q as <- <-. lra.
    + apply B. intros (_ & i & dir & _ & _ & l & r & _ & _ & _ & _ & p & tol' & [Q|[]] & H). injection Q as <- <-.
      unfold steep in H. replace (0 - 0)%R with 0%R in H by ring. rewrite Rabs_R0 in H. lra.
Qed.
Print Assumptions C47_zeros_refuted.

(** A jump from 1 to 3 between the cells 1 and 2 of four cells is found by the scalar version, the other
    hypotheses hold for these data. *)
Example C47_example : let s := fun i : index => if Z.leb (nth 0 i 0) 1 then 1%R else 3%R in
  let conds := [((fun x : R => x), (1 / 4)%R)] in
  steep_in conds (mkBox [-1] [5]) s 0 [1] /\ ~ steep_in conds (mkBox [-1] [5]) s 0 [3] /\ tolerances_ok conds /\
  (forall y, -1 <= y < 4 -> clear_cut conds (s [y + 1]) (s [y])) /\ 0 <= 4 <= 0 + 8.
Proof.
  intros s conds. split; [|split; [|split; [|split; [|lia]]]].
  - exists [0], [2].
    split; [split; [reflexivity|]; split; [cbn; lia|]; split; [cbn [nth]; lia|]; intros [|[|r]] Hr; cbn; congruence|].
    split; [split; [reflexivity|]; split; [cbn; lia|]; split; [cbn [nth]; lia|]; intros [|[|r]] Hr; cbn; congruence|].
    split; [split; [reflexivity|]; split; [reflexivity|]; intros [|r] Hr; cbn [nth length lower upper] in *; lia|].
    split; [split; [reflexivity|]; split; [reflexivity|]; intros [|r] Hr; cbn [nth length lower upper] in *; lia|].
    exists (fun x : R => x), (1 / 4)%R. split; [left; reflexivity|]. right. unfold steep, s. cbn.
    rewrite (Rabs_left (1 - 3)), (Rabs_right 1), (Rabs_right 3) by lra. lra.
  - intros (l & r & Nl & Nr & _ & _ & p & tol & [Q|[]] & H). injection Q as <- <-.
    apply neighbour_shift in Nl as (_ & ->). apply neighbour_shift in Nr as (_ & ->). unfold steep, s in H. cbn in H.
    replace (3 - 3)%R with 0%R in H by ring. rewrite Rabs_R0, (Rabs_right 3) in H by lra. lra.
  - intros p tol [Q|[]]. injection Q as <- <-. lra.
  - intros y Hy p tol [Q|[]]. injection Q as <- <-. unfold s. cbn [nth].
    destruct (Z.leb (y + 1) 1), (Z.leb y 1).
    + replace (1 - 1)%R with 0%R by ring. rewrite Rabs_R0, (Rabs_right 1) by lra. lra.
    + rewrite (Rabs_left (1 - 3)), (Rabs_right 1), (Rabs_right 3) by lra. lra.
    + rewrite (Rabs_right (3 - 1)), (Rabs_right 1), (Rabs_right 3) by lra. lra.
    + replace (3 - 3)%R with 0%R by ring. rewrite Rabs_R0, (Rabs_right 3) by lra. lra.
Qed.

(** * C69: cut cell tagging *)

(** Exactly the cells of both boxes which are neither covered nor regular get the tag 1, all other tags are
    kept, for every rank and every pair of boxes. *)
Theorem C69_cut_cells : forall n tagbox volumebox volumes d, box_of_rank n tagbox -> box_of_rank n volumebox ->
  forall i,
  (in_box tagbox i /\ in_box volumebox i /\ (0 < volumes i < 1)%R -> TagCutCells tagbox volumebox volumes d i = 1) /\
  (~ (in_box tagbox i /\ in_box volumebox i /\ (0 < volumes i < 1)%R) -> TagCutCells tagbox volumebox volumes d i = d i).
Proof. exact cutcells. Qed.
Print Assumptions C69_cut_cells.

Example C69_example : let v := fun i : index => if Z.eqb (nth 0 i 0) 1 then (1 / 2)%R else 1%R in
  box_of_rank 1 (mkBox [0] [3]) /\ box_of_rank 1 (mkBox [-1] [4]) /\
  TagCutCells (mkBox [0] [3]) (mkBox [-1] [4]) v (fun _ => 0) [1] = 1 /\
  TagCutCells (mkBox [0] [3]) (mkBox [-1] [4]) v (fun _ => 2) [2] = 2.
Proof.
  intros v. split; [split; reflexivity|]. split; [split; reflexivity|]. split.
  - apply (C69_cut_cells 1); [split; reflexivity|split; reflexivity|].
    split; [|split; [|unfold v; cbn; lra]]; (split; [reflexivity|]; split; [reflexivity|]; intros [|r] Hr; cbn in *; lia).
  - apply (C69_cut_cells 1); [split; reflexivity|split; reflexivity|]. intros (_ & _ & Q). unfold v in Q. cbn in Q. lra.
Qed.
