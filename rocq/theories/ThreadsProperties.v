(** C147, C148: thread local values, means over boxes, source terms of several tubes and the choice of the block. *)
From Coq Require Import List ZArith Reals Bool Lra Lia.
From Verif Require Import FeedbackModel FeedbackSpec FeedbackProofs ThreadsModel ThreadsSpec ThreadsProofs.
Import ListNotations.
Local Open Scope R_scope.

(** C147: combining contributions in thread local copies and reducing them gives the combination of all contributions, for
    every number of threads and every assignment of passes to threads, if the operation is associative and commutative and
    the initial value absorbs itself. *)
Theorem C147_reduce : forall (A : Type) (op : A -> A -> A) (e : A),
  (forall a b c, op a (op b c) = op (op a b) c) -> (forall a b, op a b = op b a) -> op e e = e ->
  forall (n : nat) (passes : list (nat * A)), (0 < n)%nat -> Forall (fun p => fst p < n)%nat passes ->
  exists instances, parallel (map (fun p => (fst p, fun x => op x (snd p))) passes) (OmpLocal n e) = Some instances /\
    Accumulate op instances = Some (fold_right op e (map snd passes)).
Proof.
  intros A op e Ha Hc He n passes Hn HF.
  destruct (parallel_reduce op Ha Hc passes (OmpLocal n e) e) as (l' & E & _ & Hr).
  - unfold OmpLocal. now rewrite repeat_length.
  - now apply red_repeat.
  - eauto.
Qed.
Print Assumptions C147_reduce.
(** Three threads, four passes. *)
Example C147_example_reduce : let passes := [(2, 5%Z); (0, 7%Z); (2, 1%Z); (1, 4%Z)]%nat in
  match parallel (map (fun p => (fst p, fun x => (x + snd p)%Z)) passes) (OmpLocal 3 0%Z) with
  | Some i => i = [7; 4; 6]%Z /\ Accumulate Z.add i = Some 17%Z | None => False end.
Proof. split; reflexivity. Qed.

(** The smallest of values found by several threads, for example of stable time steps, is the smallest of all. *)
Theorem C147_min : forall (e : R) (n : nat) (passes : list (nat * R)), (0 < n)%nat -> Forall (fun p => fst p < n)%nat passes ->
  exists instances v, parallel (map (fun p => (fst p, fun x => Rmin x (snd p))) passes) (OmpLocal n e) = Some instances /\
    Min instances = Some v /\ smallest e (map snd passes) v.
Proof.
  intros e n passes Hn HF.
  destruct (C147_reduce R Rmin e) with (n := n) (passes := passes) as (i & E & Hr); auto.
  - intros; apply Rmin_assoc.
  - apply Rmin_comm.
  - apply Rmin_left; lra.
  - exists i, (fold_right Rmin e (map snd passes)). split; [exact E|]. rewrite min_red. split; [exact Hr|].
    clear. induction (map snd passes) as [|x l IH]; cbn.
    + split; [lra|]. split; [intros x []|now left].
    + destruct IH as (H1 & H2 & H3). pose proof (Rmin_l x (fold_right Rmin e l)). pose proof (Rmin_r x (fold_right Rmin e l)).
      split; [lra|]. split.
      * intros y [<-|Hy]; [lra|]. specialize (H2 y Hy). lra.
      * destruct (Rle_dec x (fold_right Rmin e l)) as [C|C].
        -- right. left. symmetry. now apply Rmin_left.
        -- rewrite Rmin_right by lra. destruct H3 as [H3|H3]; [now left|right; now right].
Qed.
Print Assumptions C147_min.
Example C147_example_min : smallest 10 (map snd [(1%nat, 3); (0%nat, 5)]) 3.
Proof. cbn. split; [lra|]. split; [intros x [<-|[<-|[]]]; lra|]. right. now left. Qed.

(** An initial value other than zero is counted once per thread in a sum, so the sum depends on the number of threads. *)
Theorem C147_initial_refuted : forall (e : R) (n : nat), (0 < n)%nat -> Accumulate Rplus (OmpLocal n e) = Some (INR n * e).
Proof.
  intros e n Hn. destruct n as [|n]; [lia|]. unfold OmpLocal, Accumulate. cbn [repeat]. f_equal. rewrite S_INR.
  assert (H : forall x, fold_left Rplus (repeat e n) x = x + INR n * e).
  { clear. induction n as [|n IH]; intros x; [cbn; lra|]. cbn [repeat fold_left]. rewrite IH, S_INR. lra. }
  rewrite H. lra.
Qed.
Print Assumptions C147_initial_refuted.
(** A thread of a larger team than at the time of construction accesses memory outside of the copies. *)
Theorem C147_team_refuted : forall (A : Type) (e : A) (f : A -> A) (n t : nat), (n <= t)%nat -> parallel [(t, f)] (OmpLocal n e) = None.
Proof.
  intros A e f n t H. unfold parallel, OmpLocal. assert (E : change t f (repeat e n) = None); [|now rewrite E].
  revert t H. induction n as [|n IH]; intros t H; cbn; [destruct t; reflexivity|]. destruct t as [|t]; [lia|]. cbn. now rewrite IH by lia.
Qed.
Print Assumptions C147_team_refuted.

(** Full claim: the value is the mean over the cells of the box. It is if every cell of the box lies in exactly one of the
    boxes that are visited, ghost cells and repetitions for several tiles included; for all threads and ranks. *)
Theorem C147_mean_partial : forall (f : Z * Z -> R) (b : box) (ranks : list (nat * list (nat * fab))),
  (exists x, inside b x) -> Forall (fun r => 0 < fst r /\ Forall (fun t => fst t < fst r) (snd r))%nat ranks ->
  holds_field f (map snd (flat_map snd ranks)) ->
  (forall x, inside b x -> exactly_one (fun p => inside (f_box p) x) (map snd (flat_map snd ranks))) ->
  exists m, GetMeanValueInBox b ranks = Some m /\ is_mean b f m.
Proof.
  intros f b ranks Hx HF Hf H1. rewrite mean_shares by exact HF. eexists. split; [reflexivity|].
  pose proof (average_mean f b [map snd (flat_map snd ranks)] Hx) as M. cbn [concat] in M. rewrite app_nil_r in M.
  specialize (M Hf H1). rewrite average_shares in M. cbn [concat] in M. rewrite app_nil_r in M. exact M.
Qed.
Print Assumptions C147_mean_partial.
(** Two patches of 4 x 1 cells with one ghost cell; the first cell is in the first one only. *)
Example C147_example_mean :
  let p := mkFab (mkBox (-1) 0 4 0) (fun i _ => IZR i + 2) in let q := mkFab (mkBox 3 0 8 0) (fun i _ => IZR i + 2) in
  let ranks := [(2, [(1, p)]); (1, [(0, q)])]%nat in
  (forall x, inside (mkBox 0 0 0 0) x -> exactly_one (fun p => inside (f_box p) x) (map snd (flat_map snd ranks))) /\
  GetMeanValueInBox (mkBox 0 0 0 0) ranks = Some 2.
Proof.
  cbv zeta. split.
  - intros x [H1 H2]. exists [], (mkFab (mkBox (-1) 0 4 0) (fun i _ => IZR i + 2)), [mkFab (mkBox 3 0 8 0) (fun i _ => IZR i + 2)].
    split; [reflexivity|]. cbn in *. split; [split; cbn; lia|]. intros y [<-|[]] [? ?]. cbn in *. lia.
  - rewrite mean_shares by (repeat constructor; cbn; lia). f_equal. cbn [flat_map snd map app shares]. unfold share, numPts. cbn [f_box f_data].
    change (points (mkBox 0 0 0 0)) with [(0, 0)%Z]. cbn. lra.
Qed.
(** Refuted: ghost cells of neighbours inside of the box are added as well, *)
Theorem C147_ghosts_refuted : forall v : R, v <> 0 ->
  exists ranks : list (nat * list (nat * fab)), holds_field (fun _ => v) (map snd (flat_map snd ranks)) /\
    map (fun t => f_box (snd t)) (flat_map snd ranks) = [mkBox (-1) 0 4 0; mkBox 3 0 8 0] /\
    GetMeanValueInBox (mkBox 3 0 3 0) ranks = Some (2 * v).
Proof.
  intros v Hv. exists [(1, [(0, mkFab (mkBox (-1) 0 4 0) (fun _ _ => v)); (0, mkFab (mkBox 3 0 8 0) (fun _ _ => v))])]%nat.
  split; [intros p x [<-|[<-|[]]] _; reflexivity|]. split; [reflexivity|].
  rewrite mean_shares by (repeat constructor; cbn; lia). f_equal. cbn [flat_map snd map app shares]. unfold share, numPts. cbn [f_box f_data].
  change (points (mkBox 3 0 3 0)) with [(3, 0)%Z]. cbn. lra.
Qed.
Print Assumptions C147_ghosts_refuted.
(** and a patch of several tiles is added once per tile. *)
Theorem C147_tiles_refuted : forall (v : R) (tiles : nat), v <> 0 ->
  exists p : fab, holds_field (fun _ => v) [p] /\ inside (f_box p) (0, 0)%Z /\
    GetMeanValueInBox (mkBox 0 0 0 0) [(1%nat, repeat (0%nat, p) tiles)] = Some (INR tiles * v).
Proof.
  intros v tiles Hv. exists (mkFab (mkBox 0 0 7 31) (fun _ _ => v)). split; [intros p x [<-|[]] _; reflexivity|].
  split; [split; cbn; lia|]. rewrite mean_shares.
  - f_equal. cbn [flat_map snd]. rewrite app_nil_r. unfold numPts. change (points (mkBox 0 0 0 0)) with [(0, 0)%Z]. cbn [length INR].
    induction tiles as [|n IH]; [cbn; lra|]. cbn [repeat map shares]. rewrite S_INR.
    assert (E : share (mkBox 0 0 0 0) (mkFab (mkBox 0 0 7 31) (fun _ _ => v)) = v).
    { unfold share. change (points (mkBox 0 0 0 0)) with [(0, 0)%Z]. cbn. lra. }
    cbn [snd]. rewrite E. unfold Rdiv in *. rewrite Rinv_1, Rmult_1_r in *. rewrite IH. ring.
  - constructor; [|constructor]. cbn. split; [lia|]. clear. induction tiles; cbn; constructor; [cbn; lia|assumption].
Qed.
Print Assumptions C147_tiles_refuted.
(** On a level without cells in the box the value is zero. *)
Theorem C147_level_refuted : forall (b : box) (ranks : list (nat * list (nat * fab))),
  Forall (fun r => 0 < fst r /\ Forall (fun t => fst t < fst r) (snd r))%nat ranks ->
  (forall p x, In p (map snd (flat_map snd ranks)) -> inside b x -> ~ inside (f_box p) x) ->
  GetMeanValueInBox b ranks = Some 0.
Proof.
  intros b ranks HF H. rewrite mean_shares by exact HF. f_equal.
  assert (E : shares b (map snd (flat_map snd ranks)) = 0); [|rewrite E; unfold Rdiv; ring].
  clear HF. induction (map snd (flat_map snd ranks)) as [|p r IH]; cbn [shares]; [reflexivity|].
  rewrite IH by (intros q x Hq; apply H; now right). unfold share. rewrite (total_ext _ (fun _ => 0)), total_zero; [lra|].
  intros x Hx. apply points_In in Hx. destruct (insideb (f_box p) x) eqn:Ei; [|reflexivity]. apply insideb_spec in Ei.
  exfalso. exact (H p x (or_introl eq_refl) Hx Ei).
Qed.
Print Assumptions C147_level_refuted.

(** The inner box: the cells of the given number of layers at a side of a box, as long as the box has that many. *)
Theorem C147_inner_box : forall (b : box) (side : Z) (dir_x : bool) (width : Z) (x : Z * Z),
  (0 < width)%Z -> (width <= (if dir_x then bx1 b - bx0 b else by1 b - by0 b) + 1)%Z ->
  let k := if dir_x then fst x else snd x in
  let lo := if dir_x then bx0 b else by0 b in
  let hi := if dir_x then bx1 b else by1 b in
  inside (GetInnerBox b side dir_x width) x <->
  inside b x /\ (if (side =? 0)%Z then k < lo + width else hi - width < k)%Z.
Proof.
  intros b side dir_x width x Hw Hn. unfold GetInnerBox, inside. cbv zeta.
  destruct (side =? 0)%Z; destruct dir_x; cbn; lia.
Qed.
Print Assumptions C147_inner_box.
Example C147_example_inner : GetInnerBox (mkBox 0 0 7 3) 1 true 2 = mkBox 6 0 7 3.
Proof. reflexivity. Qed.

(** C148: the time step allowed for several tubes is the smallest of those of the tubes (and the largest double). *)
Theorem C148_stable : forall (T : Type) (tubes : list T) (sources : list (source T)),
  smallest double_max (map (fun ts => stable (snd ts) (fst ts)) (combine tubes sources)) (MultiStableDt tubes sources).
Proof.
  intros T tubes sources. unfold MultiStableDt. generalize (combine tubes sources) as l. generalize double_max as e.
  intros e l. revert e. induction l as [|[t s] r IH]; intros e; cbn [fold_left map fst snd].
  - split; [lra|]. split; [intros x []|now left].
  - destruct (Rlt_dec (stable s t) e) as [H|H]; destruct (IH (if Rlt_dec (stable s t) e then stable s t else e)) as (H1 & H2 & H3);
      destruct (Rlt_dec (stable s t) e) as [H'|H']; try contradiction.
    + split; [lra|]. split; [intros x [<-|Hx]; [exact H1|now apply H2]|]. destruct H3 as [H3|H3]; [right; now left|right; now right].
    + split; [exact H1|]. split; [intros x [<-|Hx]; [lra|now apply H2]|]. destruct H3 as [H3|H3]; [now left|right; now right].
Qed.
Print Assumptions C148_stable.
(** In particular with one source term per tube no tube gets a step larger than it allows. *)
Theorem C148_stable_every : forall (T : Type) (tubes : list T) (sources : list (source T)) (i : nat) (t : T) (s : source T),
  length tubes = length sources -> nth_error tubes i = Some t -> nth_error sources i = Some s ->
  MultiStableDt tubes sources <= stable s t.
Proof.
  intros T tubes sources i t s Hl Ht Hs. destruct (C148_stable T tubes sources) as (_ & H & _). apply H.
  apply in_map_iff. exists (t, s). split; [reflexivity|]. clear H. revert sources i Hl Ht Hs.
  induction tubes as [|a r IH]; intros [|b l] [|i] Hl Ht Hs; cbn in *; try discriminate.
  - injection Ht as ->. injection Hs as ->. now left.
  - right. apply (IH l i); auto.
Qed.
Print Assumptions C148_stable_every.
(** Tubes without a source term of their own are not considered. *)
Theorem C148_stable_refuted : forall (T : Type) (t : T) (s : source T), MultiStableDt [t; t] [s] = MultiStableDt [t] [s] /\
  MultiAdvance [t] [] 1 = None.
Proof. intros. split; reflexivity. Qed.
Print Assumptions C148_stable_refuted.

(** Advancing several tubes: either every tube is advanced once by its own source term and the call succeeds, or the call
    returns the first error, tubes before it are advanced, and tubes behind it are as they were. *)
Theorem C148_advance : forall (T : Type) (tubes : list T) (sources : list (source T)) (dt : R),
  length tubes = length sources ->
  (exists tubes', all_advanced dt tubes sources tubes' /\ MultiAdvance tubes sources dt = Some (tubes', None)) \/
  (exists before sbefore before' t s t' e behind sbehind,
     tubes = before ++ t :: behind /\ sources = sbefore ++ s :: sbehind /\ all_advanced dt before sbefore before' /\
     advance s t dt = (t', Some e) /\ MultiAdvance tubes sources dt = Some (before' ++ t' :: behind, Some e)).
Proof.
  intros T. induction tubes as [|t r IH]; intros [|s l] dt Hl; cbn in Hl; try discriminate.
  - left. exists []. split; constructor.
  - destruct (advance s t dt) as [t' [e|]] eqn:E.
    + right. exists [], [], [], t, s, t', e, r, l. cbn. rewrite E. split; [reflexivity|]. split; [reflexivity|].
      split; [constructor|]. split; reflexivity.
    + destruct (IH l dt ltac:(lia)) as [(ts' & H1 & H2) | (b & sb & b' & u & w & u' & e & c & d & -> & -> & H3 & H4 & H5)].
      * left. exists (t' :: ts'). split; [now constructor|]. cbn. now rewrite E, H2.
      * right. exists (t :: b), (s :: sb), (t' :: b'), u, w, u', e, c, d. split; [reflexivity|]. split; [reflexivity|].
        split; [now constructor|]. split; [exact H4|].
        cbn. now rewrite E, H5.
Qed.
Print Assumptions C148_advance.
(** Three tubes given by a number; the second source term fails for steps above 1. *)
Example C148_example : let ok := mkSource (fun _ => 5) (fun t dt => (t + dt, None)) in
  let bad := mkSource (fun _ => 1) (fun t dt => (t, if Rlt_dec 1 dt then Some 1 else None)) in
  MultiAdvance [10; 20; 30] [ok; bad; ok] 2 = Some ([10 + 2; 20; 30], Some 1) /\
  MultiStableDt [10; 20; 30] [ok; bad; ok] = 1.
Proof.
  cbv zeta. cbn. destruct (Rlt_dec 1 2); [|lra]. split; [reflexivity|].
  unfold MultiStableDt. cbn. destruct (Rlt_dec 5 double_max) as [H|H].
  - destruct (Rlt_dec 1 5); [|lra]. destruct (Rlt_dec 5 1); [lra|reflexivity].
  - destruct (Rlt_dec 1 double_max) as [H1|H1]; [destruct (Rlt_dec 5 1); [lra|reflexivity]|].
    exfalso. apply H. unfold double_max.
    assert (1 <= 2 ^ 52) by (apply pow_R1_Rle; lra). assert (8 <= 2 ^ 1023).
    { replace 8 with (2 ^ 3) by (cbn; lra). apply Rle_pow; [lra|]. apply Nat.leb_le. reflexivity. }
    assert (/ 2 ^ 52 <= 1) by (rewrite <- Rinv_1; apply Rinv_le_contravar; lra).
    assert (1 * 8 <= (2 - / 2 ^ 52) * 2 ^ 1023) by (apply Rmult_le_compat; lra). lra.
Qed.

(** The block that is written: block 0 is the plenum, block k the k-th tube; nothing is written for tubes that do not exist. *)
Theorem C148_block_partial : forall (k : Z) (plena tubes : nat), (0 <= k)%Z -> (0 < plena)%nat ->
  (k = 0%Z /\ written_block k plena tubes = Plenum 0) \/
  (exists i, k = Z.of_nat (S i) /\ ((i < tubes)%nat -> written_block k plena tubes = Tube i) /\
     ((tubes <= i)%nat -> written_block k plena tubes = NoBlock)).
Proof.
  intros k plena tubes Hk Hp. destruct (Z.eq_dec k 0) as [->|H].
  - left. split; [reflexivity|]. unfold written_block, clamp01. cbn. destruct plena; [lia|]. reflexivity.
  - right. exists (Z.to_nat (k - 1)). split; [lia|]. unfold written_block, clamp01.
    assert (E : (if (k <? 0)%Z then 0%Z else if (1 <? k)%Z then 1%Z else k) = 1%Z).
    { destruct (k <? 0)%Z eqn:E1; [apply Z.ltb_lt in E1; lia|]. destruct (1 <? k)%Z eqn:E2; [reflexivity|]. apply Z.ltb_ge in E2. lia. }
    rewrite E. cbn [Z.eqb andb]. replace (k - 1 <? 0)%Z with false by (symmetry; apply Z.ltb_ge; lia). split; intros Hi.
    + replace (k - 1 <? Z.of_nat tubes)%Z with true; [reflexivity|]. symmetry. apply Z.ltb_lt. lia.
    + replace (k - 1 <? Z.of_nat tubes)%Z with false; [reflexivity|]. symmetry. apply Z.ltb_ge. lia.
Qed.
Print Assumptions C148_block_partial.
Example C148_example_block : map (fun k => written_block k 1 2) [0; 1; 2; 3]%Z = [Plenum 0; Tube 0; Tube 1; NoBlock].
Proof. reflexivity. Qed.
(** A negative number is an access outside of the array; only the first of several plena can be chosen; without plena
    block 0 is the first tube. *)
Theorem C148_block_refuted : forall (plena tubes : nat),
  (forall k, (k < 0)%Z -> written_block k plena tubes = OutOfBounds) /\
  (forall k i, (0 < i)%nat -> written_block k plena tubes <> Plenum i) /\
  ((0 < tubes)%nat -> written_block 0 0 tubes = Tube 0).
Proof.
  intros plena tubes. unfold written_block, clamp01. split; [|split].
  - intros k Hk. replace (k <? 0)%Z with true by (symmetry; apply Z.ltb_lt; lia). cbn [Z.eqb andb].
    replace (k - 0)%Z with k by lia. replace (k <? Z.of_nat plena)%Z with true by (symmetry; apply Z.ltb_lt; lia).
    replace (k <? 0)%Z with true by (symmetry; apply Z.ltb_lt; lia). reflexivity.
  - intros k i Hi. destruct (k <? 0)%Z eqn:E1; [|destruct (1 <? k)%Z eqn:E2].
    + cbn [Z.eqb andb]. replace (k - 0)%Z with k by lia. rewrite E1. destruct (k <? Z.of_nat plena)%Z; [discriminate|]. destruct (k <? Z.of_nat tubes)%Z; discriminate.
    + cbn [Z.eqb andb]. destruct (k - 1 <? Z.of_nat tubes)%Z; [|discriminate]. destruct (k - 1 <? 0)%Z; discriminate.
    + rewrite Z.sub_diag. cbn. apply Z.ltb_ge in E1, E2. destruct ((k =? 0) && (0 <? Z.of_nat plena))%Z.
      * intros C. inversion C. lia.
      * destruct (0 <? Z.of_nat tubes)%Z; discriminate.
  - intros Ht. cbn. destruct tubes; [lia|]. reflexivity.
Qed.
Print Assumptions C148_block_refuted.
