(** The sign of the distance to a closed polygon is constant on connected components of the complement. *)
From Coq Require Import List ZArith Lia Reals Lra Bool.
From Verif Require Import GeometryModel GeometrySpec GeometryProofs.
Import ListNotations.
Local Open Scope R_scope.

Definition cb (e : point * point) (p : point) : bool := Z.odd (CountCrossedLines (fst e) (snd e) p).

Lemma cb_iff v w p : cb (v, w) p = true <-> (snd v < snd p <= snd w \/ snd w < snd p <= snd v) /\ xint v w p < fst p.
Proof.
  rewrite <- crossed_iff. unfold cb. cbn [fst snd]. destruct (crossed_cases v w p) as [C|C]; rewrite C; cbn; split; intros; try discriminate; reflexivity.
Qed.

Lemma cb_false v w p : cb (v, w) p = false <-> ~ ((snd v < snd p <= snd w \/ snd w < snd p <= snd v) /\ xint v w p < fst p).
Proof. rewrite <- cb_iff. destruct (cb (v, w) p); split; intros H; congruence. Qed.

Definition parity (es : list (point * point)) (p : point) : bool := Z.odd (crossed p es).

Lemma parity_cons e es p : parity (e :: es) p = xorb (cb e p) (parity es p).
Proof. unfold parity, crossed. cbn [map]. rewrite zsum_cons, Z.odd_add. reflexivity. Qed.

Lemma parity_nil p : parity [] p = false.
Proof. reflexivity. Qed.

(** ** Horizontal moves *)
Lemma horizontal_between (p q : point) x : snd p = snd q -> fst p <= x <= fst q \/ fst q <= x <= fst p -> on_segment p q (x, snd p).
Proof.
  destruct p as [p0 p1], q as [q0 q1]. cbn [fst snd]. intros <- H.
  destruct (Req_dec p0 q0) as [E|N].
  - subst. exists 0. split; [lra|]. cbn [fst snd]. f_equal; lra.
  - exists ((x - p0) / (q0 - p0)). cbn [fst snd]. split.
    + destruct (Rlt_dec p0 q0).
      * split; [apply Rmult_le_pos; [lra|left; apply Rinv_0_lt_compat; lra]|].
        apply Rmult_le_reg_r with (q0 - p0); [lra|]. unfold Rdiv. rewrite Rmult_assoc, Rinv_l by lra. lra.
      * replace ((x - p0) / (q0 - p0)) with ((p0 - x) / (p0 - q0)) by (field; lra).
        split; [apply Rmult_le_pos; [lra|left; apply Rinv_0_lt_compat; lra]|].
        apply Rmult_le_reg_r with (p0 - q0); [lra|]. unfold Rdiv. rewrite Rmult_assoc, Rinv_l by lra. lra.
    + f_equal; field; lra.
Qed.

Lemma vertical_between (p q : point) y : fst p = fst q -> snd p <= y <= snd q \/ snd q <= y <= snd p -> on_segment p q (fst p, y).
Proof.
  intros E H. destruct (horizontal_between (snd p, fst p) (snd q, fst q) y) as (t & T & Q); [exact E|exact H|].
  exists t. split; [exact T|]. cbn [fst snd] in Q. apply pair_equal_spec in Q as [Q1 Q2]. rewrite <- Q1. f_equal. exact Q2.
Qed.

Lemma xint_level (v w p q : point) : snd p = snd q -> xint v w p = xint v w q.
Proof. intros E. unfold xint. rewrite E. reflexivity. Qed.

Lemma horizontal_cb v w p q : snd p = snd q -> (forall z, on_segment p q z -> ~ on_segment v w z) -> cb (v, w) p = cb (v, w) q.
Proof.
  intros E A. destruct (cb (v, w) p) eqn:P; symmetry.
  - apply cb_iff in P as [H X]. apply cb_iff. rewrite <- E, <- (xint_level v w p q E). split; [exact H|].
    destruct (Rlt_dec (xint v w p) (fst q)); [assumption|]. exfalso.
    apply (A (xint v w p, snd p)); [apply horizontal_between; [exact E|right; lra]|apply xint_on_segment, H].
  - apply cb_false. rewrite <- E, <- (xint_level v w p q E). intros [H X]. apply cb_false in P. apply P. split; [exact H|].
    destruct (Rlt_dec (xint v w p) (fst p)); [assumption|]. exfalso.
    apply (A (xint v w p, snd p)); [apply horizontal_between; [exact E|left; lra]|apply xint_on_segment, H].
Qed.

(** ** Vertical moves *)

Lemma segment_convex v w a b z : on_segment v w a -> on_segment v w b -> on_segment a b z -> on_segment v w z.
Proof.
  intros (s & S & ->) (t & T & ->) (u & U & ->). exists ((1 - u) * s + u * t). split; [split; nra|]. cbn [fst snd]. f_equal; ring.
Qed.

(** Two points of an edge at heights between p and q lie on the same side of the vertical line through p and q. *)
Lemma same_side (v w p q a b : point) : fst p = fst q -> snd p <= snd q -> (forall z, on_segment p q z -> ~ on_segment v w z) ->
  on_segment v w a -> on_segment v w b -> snd p <= snd a <= snd q -> snd p <= snd b <= snd q -> fst a < fst p -> fst b < fst p.
Proof.
  intros E L A Ha Hb La Lb X. destruct (Rlt_dec (fst b) (fst p)) as [?|N]; [assumption|]. exfalso.
  set (u := (fst p - fst a) / (fst b - fst a)).
  assert (U : 0 <= u <= 1).
  { unfold u. split; [apply Rmult_le_pos; [lra|left; apply Rinv_0_lt_compat; lra]|].
    apply Rmult_le_reg_r with (fst b - fst a); [lra|]. unfold Rdiv. rewrite Rmult_assoc, Rinv_l by lra. lra. }
  set (z := ((1 - u) * fst a + u * fst b, (1 - u) * snd a + u * snd b)).
  assert (Z1 : fst z = fst p) by (unfold z, u; cbn [fst]; field; lra).
  assert (Z2 : snd p <= snd z <= snd q) by (unfold z; cbn [snd]; split; nra).
  assert (ZZ : z = (fst p, snd z)) by (rewrite <- Z1; unfold z; reflexivity).
  apply (A z).
  - rewrite ZZ. apply vertical_between; [exact E|left; exact Z2].
  - apply (segment_convex v w a b); [exact Ha|exact Hb|]. exists u. split; [exact U|reflexivity].
Qed.

Definition inQ (p q v : point) : bool := leb (snd p) (snd v) && ltb (snd v) (snd q) && ltb (fst v) (fst p).

Lemma inQ_iff p q v : inQ p q v = true <-> snd p <= snd v < snd q /\ fst v < fst p.
Proof. unfold inQ. rewrite !andb_true_iff, leb_spec, !ltb_spec. tauto. Qed.

Lemma end_v v w : on_segment v w v.
Proof. exists 0. split; [lra|]. destruct v. cbn [fst snd]. f_equal; ring. Qed.
Lemma end_w v w : on_segment v w w.
Proof. exists 1. split; [lra|]. destruct w. cbn [fst snd]. f_equal; ring. Qed.
Lemma segment_sym v w z : on_segment v w z -> on_segment w v z.
Proof. intros (t & T & ->). exists (1 - t). split; [lra|]. f_equal; ring. Qed.

Lemma xint_sym (v w p : point) : snd v <> snd w -> xint v w p = xint w v p.
Proof. intros N. unfold xint. field. split; lra. Qed.

Lemma cb_sym v w p : cb (v, w) p = cb (w, v) p.
Proof.
  destruct (cb (w, v) p) eqn:C.
  - apply cb_iff in C as [H X]. apply cb_iff. split; [tauto|]. rewrite xint_sym; [exact X|destruct H; lra].
  - apply cb_false. intros [H X]. apply cb_false in C. apply C. split; [tauto|]. rewrite xint_sym; [exact X|destruct H; lra].
Qed.

Lemma bool_eq_iff a b : (a = true <-> b = true) -> a = b.
Proof. destruct a, b; intros [H1 H2]; auto; symmetry; auto. Qed.

Lemma vertical_cb_le (v w p q : point) : snd v <= snd w -> fst p = fst q -> snd p <= snd q ->
  (forall z, on_segment p q z -> ~ on_segment v w z) -> xorb (cb (v, w) p) (cb (v, w) q) = xorb (inQ p q v) (inQ p q w).
Proof.
  intros VW E L A.
  assert (SS : forall a b, on_segment v w a -> on_segment v w b -> snd p <= snd a <= snd q -> snd p <= snd b <= snd q ->
               (fst a < fst p <-> fst b < fst p)).
  { intros a b Ha Hb La Lb. split; apply (same_side v w p q); assumption. }
  pose proof (end_v v w) as EV. pose proof (end_w v w) as EW.
  destruct (Rlt_dec (snd v) (snd p)) as [Vp|Vp].
  - assert (Q1 : inQ p q v = false) by (destruct (inQ p q v) eqn:I; [apply inQ_iff in I; lra|reflexivity]). rewrite Q1.
    destruct (Rlt_dec (snd w) (snd p)) as [Wp|Wp]; [|destruct (Rlt_dec (snd w) (snd q)) as [Wq|Wq]].
    + assert (cb (v, w) p = false) as -> by (apply cb_false; lra). assert (cb (v, w) q = false) as -> by (apply cb_false; lra).
      assert (inQ p q w = false) as -> by (destruct (inQ p q w) eqn:I; [apply inQ_iff in I; lra|reflexivity]). reflexivity.
    + assert (cb (v, w) q = false) as -> by (apply cb_false; lra). rewrite xorb_false_r, xorb_false_l.
      apply bool_eq_iff. rewrite cb_iff, inQ_iff.
      pose proof (SS (xint v w p, snd p) w ltac:(apply xint_on_segment; lra) EW) as S. cbn [fst snd] in S.
      specialize (S ltac:(lra) ltac:(lra)). intuition lra.
    + assert (inQ p q w = false) as -> by (destruct (inQ p q w) eqn:I; [apply inQ_iff in I; lra|reflexivity]).
      assert (cb (v, w) p = cb (v, w) q) as ->; [|destruct (cb (v, w) q); reflexivity].
      apply bool_eq_iff. rewrite !cb_iff.
      pose proof (SS (xint v w p, snd p) (xint v w q, snd q) ltac:(apply xint_on_segment; lra) ltac:(apply xint_on_segment; lra)) as S.
      cbn [fst snd] in S. specialize (S ltac:(lra) ltac:(lra)). rewrite <- E. intuition lra.
  - assert (cb (v, w) p = false) as -> by (apply cb_false; lra). rewrite xorb_false_l.
    destruct (Rlt_dec (snd v) (snd q)) as [Vq|Vq]; [destruct (Rlt_dec (snd w) (snd q)) as [Wq|Wq]|].
    + assert (cb (v, w) q = false) as -> by (apply cb_false; lra).
      assert (inQ p q v = inQ p q w) as ->; [|destruct (inQ p q w); reflexivity].
      apply bool_eq_iff. rewrite !inQ_iff. pose proof (SS v w EV EW ltac:(lra) ltac:(lra)). intuition lra.
    + assert (inQ p q w = false) as -> by (destruct (inQ p q w) eqn:I; [apply inQ_iff in I; lra|reflexivity]). rewrite xorb_false_r.
      apply bool_eq_iff. rewrite cb_iff, inQ_iff.
      pose proof (SS (xint v w q, snd q) v ltac:(apply xint_on_segment; lra) EV) as S. cbn [fst snd] in S.
      specialize (S ltac:(lra) ltac:(lra)). rewrite <- E. intuition lra.
    + assert (cb (v, w) q = false) as -> by (apply cb_false; lra).
      assert (inQ p q v = false) as -> by (destruct (inQ p q v) eqn:I; [apply inQ_iff in I; lra|reflexivity]).
      assert (inQ p q w = false) as -> by (destruct (inQ p q w) eqn:I; [apply inQ_iff in I; lra|reflexivity]). reflexivity.
Qed.

Lemma vertical_cb (v w p q : point) : fst p = fst q -> snd p <= snd q ->
  (forall z, on_segment p q z -> ~ on_segment v w z) -> xorb (cb (v, w) p) (cb (v, w) q) = xorb (inQ p q v) (inQ p q w).
Proof.
  intros E L A. destruct (Rle_dec (snd v) (snd w)) as [H|H]; [apply vertical_cb_le; assumption|].
  rewrite !(cb_sym v w), (xorb_comm (inQ p q v)). apply vertical_cb_le; [lra|assumption|assumption|].
  intros z Z1 Z2. apply (A z Z1), segment_sym, Z2.
Qed.

(** ** Closed chains *)

(** The sum of differences along a chain is the difference of its ends. *)
Lemma telescope (f : point * point -> bool) (g : point -> bool) (v : point) (r : list point) (z : point) :
  (forall a b, In (a, b) (edges (v :: r ++ [z])) -> f (a, b) = xorb (g a) (g b)) ->
  fold_right (fun e acc => xorb (f e) acc) false (edges (v :: r ++ [z])) = xorb (g v) (g z).
Proof.
  revert v. induction r as [|u r IH]; intros v H.
  - cbn [app edges fold_right]. rewrite xorb_false_r. apply H. left. reflexivity.
  - change (edges (v :: (u :: r) ++ [z])) with ((v, u) :: edges (u :: r ++ [z])) in *. cbn [fold_right].
    rewrite (IH u) by (intros a b Hab; apply H; right; exact Hab). rewrite (H v u) by (left; reflexivity).
    rewrite xorb_assoc, <- (xorb_assoc (g u)), xorb_nilpotent, xorb_false_l. reflexivity.
Qed.

Lemma parity_xor es p q : xorb (parity es p) (parity es q) = fold_right (fun e acc => xorb (xorb (cb e p) (cb e q)) acc) false es.
Proof.
  induction es as [|e es IH]; [reflexivity|]. cbn [fold_right]. rewrite <- IH, !parity_cons.
  destruct (cb e p), (cb e q), (parity es p), (parity es q); reflexivity.
Qed.

Lemma parity_fold es p : parity es p = fold_right (fun e acc => xorb (cb e p) acc) false es.
Proof. induction es as [|e es IH]; [reflexivity|]. cbn [fold_right]. rewrite <- IH, parity_cons. reflexivity. Qed.

Lemma xorb_false_eq a b : xorb a b = false -> a = b.
Proof. destruct a, b; cbn; congruence. Qed.

Lemma joined_parity vs p q : closed vs -> joined (polyline vs) p q -> parity (edges vs) p = parity (edges vs) q.
Proof.
  intros (v & r & ->) [D A].
  assert (A' : forall a b, In (a, b) (edges (v :: r ++ [v])) -> forall z, on_segment p q z -> ~ on_segment a b z).
  { intros a b I z Z1 Z2. apply (A z Z1). exists a, b. split; assumption. }
  destruct D as [D|D].
  - destruct (Rle_dec (snd p) (snd q)) as [L|L].
    + apply xorb_false_eq. rewrite parity_xor.
      rewrite (telescope (fun e => xorb (cb e p) (cb e q)) (inQ p q)); [apply xorb_nilpotent|].
      intros a b I. apply vertical_cb; [exact D|exact L|apply A', I].
    + symmetry. apply xorb_false_eq. rewrite parity_xor.
      rewrite (telescope (fun e => xorb (cb e q) (cb e p)) (inQ q p)); [apply xorb_nilpotent|].
      intros a b I. apply vertical_cb; [symmetry; exact D|lra|]. intros z Z. apply (A' a b I z), segment_sym, Z.
  - rewrite !parity_fold. assert (H : forall e, In e (edges (v :: r ++ [v])) -> cb e p = cb e q).
    { intros [a b] I. apply horizontal_cb; [exact D|apply A', I]. }
    clear A A'. induction (edges (v :: r ++ [v])) as [|e es IH]; [reflexivity|]. cbn [fold_right]. rewrite (H e) by (left; reflexivity). f_equal.
    apply IH. intros e' I. apply H. right. exact I.
Qed.

Lemma connected_parity vs p q : closed vs -> connected (polyline vs) p q -> parity (edges vs) p = parity (edges vs) q.
Proof. intros C. induction 1 as [p|p q r J _ IH]; [reflexivity|]. rewrite (joined_parity vs p q C J). exact IH. Qed.

Lemma connected_avoids S p q : connected S p q -> ~ S p -> ~ S q.
Proof. induction 1 as [p|p q r J _ IH]; intros H; [exact H|]. apply IH. apply J, end_w. Qed.

(** vertices of edges *)
Lemma edges_in {A} (vs : list A) a b : In (a, b) (edges vs) -> In a vs /\ In b vs.
Proof.
  induction vs as [|v [|w r] IH]; cbn [edges]; intros H; [contradiction|contradiction|].
  destruct H as [E|H].
  - apply pair_equal_spec in E as [-> ->]. split; [left|right; left]; reflexivity.
  - destruct (IH H) as [H1 H2]. split; right; assumption.
Qed.

Lemma convex_lt a b q t : 0 <= t <= 1 -> a < q -> b < q -> (1 - t) * a + t * b < q.
Proof. intros T A B. destruct (Req_dec t 1) as [-> |N]; [lra|]. nra. Qed.
Lemma convex_gt a b q t : 0 <= t <= 1 -> q < a -> q < b -> q < (1 - t) * a + t * b.
Proof. intros T A B. destruct (Req_dec t 1) as [-> |N]; [lra|]. nra. Qed.

(** All points of a polyline lie in every half plane which contains its vertices. *)
Lemma beyond_parity vs (q : point) : closed vs ->
  (forall v, In v vs -> fst v < fst q) \/ (forall v, In v vs -> fst q < fst v) \/
  (forall v, In v vs -> snd v < snd q) \/ (forall v, In v vs -> snd q < snd v) -> parity (edges vs) q = false.
Proof.
  intros (v & r & E) H. rewrite parity_fold, E. destruct H as [H|H].
  - rewrite (telescope (fun e => cb e q) (fun a => ltb (snd a) (snd q))); [apply xorb_nilpotent|].
    intros a b I. assert (I' : In (a, b) (edges vs)) by (rewrite E; exact I). apply edges_in in I' as [Ia Ib].
    pose proof (H a Ia) as Ha. pose proof (H b Ib) as Hb.
    assert (X : (snd a < snd q <= snd b \/ snd b < snd q <= snd a) -> xint a b q < fst q).
    { intros C. pose proof (level_param a b q C) as T. unfold xint. apply convex_lt; assumption. }
    destruct (ltb (snd a) (snd q)) eqn:LA, (ltb (snd b) (snd q)) eqn:LB; cbn [xorb]; [apply cb_false|apply cb_iff|apply cb_iff|apply cb_false];
      unfold ltb in LA, LB; destruct (Rlt_dec (snd a) (snd q)), (Rlt_dec (snd b) (snd q)); try discriminate; try lra.
  - rewrite (telescope (fun e => cb e q) (fun a => false)); [reflexivity|].
    intros a b I. assert (I' : In (a, b) (edges vs)) by (rewrite E; exact I). apply edges_in in I' as [Ia Ib].
    cbn [xorb]. apply cb_false. intros [C X]. destruct H as [H|[H|H]]; pose proof (H a Ia) as Ha; pose proof (H b Ib) as Hb; [|lra|lra].
    pose proof (level_param a b q C) as T. unfold xint in X. pose proof (convex_gt _ _ _ _ T Ha Hb). lra.
Qed.

Lemma beyond_not_on vs (q : point) :
  (forall v, In v vs -> fst v < fst q) \/ (forall v, In v vs -> fst q < fst v) \/
  (forall v, In v vs -> snd v < snd q) \/ (forall v, In v vs -> snd q < snd v) -> ~ polyline vs q.
Proof.
  intros H (a & b & I & (t & T & Q)). apply edges_in in I as [Ia Ib].
  assert (Q1 : fst q = (1 - t) * fst a + t * fst b) by (rewrite Q; reflexivity).
  assert (Q2 : snd q = (1 - t) * snd a + t * snd b) by (rewrite Q; reflexivity).
  destruct H as [H|[H|[H|H]]]; pose proof (H a Ia) as Ha; pose proof (H b Ib) as Hb.
  - pose proof (convex_lt _ _ _ t T Ha Hb). lra.
  - pose proof (convex_gt _ _ _ t T Ha Hb). lra.
  - pose proof (convex_lt _ _ _ t T Ha Hb). lra.
  - pose proof (convex_gt _ _ _ t T Ha Hb). lra.
Qed.

(** ** Distances *)
Lemma is_distance_unique {X} (d : X -> X -> R) S p a b : is_distance d S p a -> is_distance d S p b -> a = b.
Proof. intros [(q & Q1 & Q2) Q3] [(z & Z1 & Z2) Z3]. pose proof (Q3 z Z1). pose proof (Z3 q Q1). lra. Qed.

Lemma distance_zero p q : distance p q = 0 -> p = q.
Proof.
  destruct p as [p0 p1], q as [q0 q1]. unfold distance. cbn [fst snd]. intros H.
  apply sqrt_eq_0 in H; [|pose proof (pow2_ge_0 (p0 - q0)); pose proof (pow2_ge_0 (p1 - q1)); lra]. destruct (Rplus_sqr_eq_0 (p0 - q0) (p1 - q1)); [unfold Rsqr; lra|]. f_equal; lra.
Qed.

Lemma distance_refl p : distance p p = 0.
Proof. unfold distance. rewrite <- sqrt_0 at 1. f_equal. ring. Qed.

Lemma distance_nonneg p q : 0 <= distance p q.
Proof. apply sqrt_pos. Qed.

(** ** Polygons *)
Lemma compute_finite w xs ys p : (0 < w)%nat -> length ys = length xs -> (2 <= length xs)%nat ->
  exists d, is_distance distance (polyline (combine xs ys)) p d /\
    ComputeDistanceTo w xs ys p = Some (Finite ((if parity (edges (combine xs ys)) p then 1 else -1) * d)).
Proof.
  intros W L N. rewrite compute_spec by (assumption || lia).
  assert (NE : edges (combine xs ys) <> []).
  { rewrite (edges_combine xs ys L). destruct (length xs - 1)%nat eqn:E; [lia|]. cbn. discriminate. }
  destruct (nearest_spec p _ NE) as (d & -> & D). exists d. split; [exact D|]. cbv zeta.
  destruct (number_exists p (edges (combine xs ys))) as [n Hn]. unfold parity. rewrite (number_crossed _ _ _ Hn), rem_parity.
  assert (Z.odd (Z.of_nat n) = Nat.odd n) as ->; [|reflexivity].
  pose proof (rem_parity n) as R. rewrite Z.rem_mod_nonneg, Zmod_odd in R by lia. rewrite <- R. destruct (Z.odd (Z.of_nat n)); reflexivity.
Qed.

Lemma horizontal_segment (p q z : point) : snd p = snd q -> fst p <= fst q -> on_segment p q z -> snd z = snd p /\ fst p <= fst z <= fst q.
Proof. intros E X (t & T & ->). cbn [fst snd]. rewrite E. split; [ring|]. split; nra. Qed.

(** Each edge met by the segment from p to q contributes to exactly one of the two crossing numbers. *)
Lemma flip_parity es (p q : point) n : snd p = snd q -> fst p <= fst q ->
  (forall a b, In (a, b) es -> snd a <> snd p /\ snd b <> snd p /\ ~ on_segment a b p /\ ~ on_segment a b q) ->
  number_of (fun e => exists z, on_segment (fst e) (snd e) z /\ on_segment p q z) es n ->
  xorb (parity es p) (parity es q) = Nat.odd n.
Proof.
  intros E X H Hn.
  induction Hn as [|[a b] l n (z & Z1 & Z2) _ IH|[a b] l n H' _ IH]; [reflexivity| |]; cbn [fst snd] in *.
  - rewrite !parity_cons, Nat.odd_succ, <- Nat.negb_odd, <- IH by (intros c d I; apply H; right; exact I).
    destruct (H a b ltac:(left; reflexivity)) as (Na & Nb & Sp & Sq).
    destruct (horizontal_segment p q z E X Z2) as [Zy Zx].
    assert (C : snd a < snd p <= snd b \/ snd b < snd p <= snd a).
    { destruct Z1 as (t & T & ->). cbn [snd] in Zy.
      destruct (Rlt_dec (snd a) (snd p)), (Rlt_dec (snd b) (snd p)); try lra.
      - pose proof (convex_lt (snd a) (snd b) (snd p) t T ltac:(assumption) ltac:(assumption)). lra.
      - pose proof (convex_gt (snd a) (snd b) (snd p) t T ltac:(lra) ltac:(lra)). lra. }
    assert (Zi : fst z = xint a b p) by (apply segment_level; [destruct C; lra|exact Z1|exact Zy]).
    assert (Pi : xint a b p <> fst p).
    { intros Q. apply Sp. replace p with (xint a b p, snd p) by (rewrite Q; destruct p; reflexivity). apply xint_on_segment, C. }
    assert (Qi : xint a b p <> fst q).
    { intros Q. apply Sq. replace q with (xint a b p, snd p) by (rewrite Q, E; destruct q; reflexivity). apply xint_on_segment, C. }
    assert (cb (a, b) p = false) as -> by (apply cb_false; lra).
    assert (cb (a, b) q = true) as ->.
    { apply cb_iff. rewrite <- E, <- (xint_level a b p q E). split; [exact C|lra]. }
    destruct (parity l p), (parity l q); reflexivity.
  - rewrite !parity_cons, <- IH by (intros c d I; apply H; right; exact I).
    rewrite (horizontal_cb a b p q E); [destruct (cb (a, b) q), (parity l p), (parity l q); reflexivity|].
    intros z Z1 Z2. apply H'. exists z. split; assumption.
Qed.
