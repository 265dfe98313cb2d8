(** C99: the optimisation solver.  C100: the gradients limited with it. *)
From Coq Require Import List Reals ZArith Bool Lra Lia Psatz.
From Verif Require Import MdLimiterModel MdLimiterSpec MdLimiterProofs.
Import ListNotations.
Local Open Scope R_scope.

(** With more iterations than constraints the solver always answers, also at degenerate vertices: with a cheapest point,
    or by a failed assertion if there is none because the costs are not bounded. *)
Theorem C99_decides : forall maxiter x0 c ks, feasible ks x0 -> starting_vertex ks x0 -> (length ks < maxiter)%nat ->
  (exists x, SolveLinearOptimizationProblem maxiter x0 c ks = Solved x /\ optimal ks c x)
  \/ (SolveLinearOptimizationProblem maxiter x0 c ks = AssertionFailed /\ unbounded ks c).
Proof.
  intros maxiter x0 c ks F V L. pose proof (starting_vertex_rows ks x0 F V) as V0. unfold SolveLinearOptimizationProblem.
  pose proof (solver_terminates ks c maxiter 0 1 x0 V0 L) as T. pose proof (lp_loop_sound ks c maxiter 0 1 x0 V0) as H.
  destruct (lp_loop ks c maxiter 0 1 x0) as [x | |]; [left; exists x; split; [reflexivity | exact H] | contradiction | right; split; [reflexivity | exact H]].
Qed.
Print Assumptions C99_decides.

(** If the costs are bounded below, there is no failed assertion. *)
Theorem C99_bounded : forall maxiter x0 c ks K, feasible ks x0 -> starting_vertex ks x0 -> (length ks < maxiter)%nat ->
  (forall z, feasible ks z -> K <= cost c z) ->
  exists x, SolveLinearOptimizationProblem maxiter x0 c ks = Solved x /\ optimal ks c x.
Proof.
  intros maxiter x0 c ks K F V L B. destruct (C99_decides maxiter x0 c ks F V L) as [H | [_ H]]; [exact H |].
  exfalso. destruct (H K) as (z & Fz & Hz). specialize (B z Fz). lra.
Qed.
Print Assumptions C99_bounded.

(** Whatever the number of iterations: a point that is returned is a cheapest one, and a failed assertion means that the
    costs are not bounded. *)
Theorem C99_sound : forall maxiter x0 c ks, feasible ks x0 -> starting_vertex ks x0 ->
  (forall x, SolveLinearOptimizationProblem maxiter x0 c ks = Solved x -> optimal ks c x)
  /\ (SolveLinearOptimizationProblem maxiter x0 c ks = AssertionFailed -> unbounded ks c).
Proof.
  intros maxiter x0 c ks F V. pose proof (starting_vertex_rows ks x0 F V) as V0. unfold SolveLinearOptimizationProblem.
  pose proof (lp_loop_sound ks c maxiter 0 1 x0 V0) as H.
  split; [intros x E | intro E]; rewrite E in H; exact H.
Qed.
Print Assumptions C99_sound.

(** Maximise x + 2y in the triangle x, y >= 0, x + y <= 1, through whose corner (0, 0) passes a third line: x + 3y >= 0. *)
Definition triangle : list ((R * R) * R) := [((1, 0), 0); ((0, 1), 0); ((Ropp 1, Ropp 1), Ropp 1); ((1, 3), 0)].

Example C99_example : feasible triangle (0, 0) /\ starting_vertex triangle (0, 0) /\ (length triangle < 100)%nat
  /\ (forall z, feasible triangle z -> -2 <= cost (-1, -2) z)
  /\ optimal triangle (-1, -2) (0, 1) /\ ~ optimal triangle (-1, -2) (1, 0).
Proof.
  assert (B : forall z, feasible triangle z -> -2 <= cost (-1, -2) z).
  { intros [z1 z2] F. pose proof (F _ (or_introl eq_refl)) as H1. pose proof (F _ (or_intror (or_intror (or_introl eq_refl)))) as H3.
    cbn [holds cost] in *. lra. }
  assert (F1 : feasible triangle (0, 1)) by (intros k [<- | [<- | [<- | [<- | []]]]]; cbn [holds]; lra).
  split; [intros k [<- | [<- | [<- | [<- | []]]]]; cbn [holds]; lra |].
  split; [cbn [starting_vertex triangle tight]; lra |]. split; [cbn [length triangle]; lia |].
  split; [exact B |]. split.
  - split; [exact F1 |]. intros z Fz. specialize (B z Fz). cbn [cost]. cbn [cost] in B. lra.
  - intros [_ H]. specialize (H _ F1). cbn [cost] in H. lra.
Qed.

(** Without the upper bound the costs are not bounded. *)
Example C99_example_unbounded : let ks := [((1, 0), 0); ((0, 1), 0)] in
  feasible ks (0, 0) /\ starting_vertex ks (0, 0) /\ unbounded ks (-1, -2).
Proof.
  split; [intros k [<- | [<- | []]]; cbn [holds]; lra |]. split; [cbn [starting_vertex tight]; lra |].
  intro K. exists (Rabs K + 1, 0). pose proof (Rabs_pos K). pose proof (Rle_abs (- K)). rewrite Rabs_Ropp in H0. split.
  - intros k [<- | [<- | []]]; cbn [holds]; lra.
  - cbn [cost]. lra.
Qed.

(** ** The limiter *)

(** j is a neighbour which the limiter respects *)
Definition seen (geom : geometry) (M j : index) : Prop :=
  share_face M j /\ 0 < volume_fraction geom j
  /\ in_front M j (boundary_normal geom M) (boundary_centroid geom M) (volume_centroid geom M) (volume_centroid geom j).

(** The linear function through the centroid of M with the gradient g has at the centroid of each such neighbour a value
    between those of the two cells. *)
Definition monotone (geom : geometry) (u : index -> R) (dx : vec) (M : index) (g : vec) : Prop :=
  forall j, seen geom M j ->
    between (u M) (linear_value (u M) (position M (volume_centroid geom M) dx) g (position j (volume_centroid geom j) dx)) (u j).

Lemma IsConnected_spec : forall geom M j, IsConnected geom M j = true <-> seen geom M j.
Proof.
  intros geom [i1 i2] [j1 j2]. unfold IsConnected, seen, share_face, in_front, vdot, vadd, vmul. cbn [fst snd].
  destruct (Rlt_dec 0 (volume_fraction geom (j1, j2))) as [P | P].
  2: { rewrite andb_false_r. split; [discriminate | intros (_ & H & _); contradiction]. }
  rewrite andb_true_r.
  destruct (Z.eqb_spec i1 j1) as [E1 | E1]; destruct (Z.eqb_spec i2 j2) as [E2 | E2]; cbn [andb negb];
    try (split; [discriminate | intros (H & _); exfalso; subst; lia]).
  all: destruct (Z.eqb_spec ((j1 - i1) * (j1 - i1) + (j2 - i2) * (j2 - i2)) 1) as [N | N]; cbn [negb];
    [| split; [discriminate | intros (H & _); exfalso; apply N; assert (j1 - i1 = 0 \/ j2 - i2 = 0)%Z as [-> | ->] by lia; nia]].
  all: assert (Sh : (Z.abs (j1 - i1) + Z.abs (j2 - i2) = 1)%Z) by (assert (Z.abs (j1 - i1) <= 1)%Z by nia; assert (Z.abs (j2 - i2) <= 1)%Z by nia;
    assert (j1 - i1 = 0 \/ j2 - i2 = 0)%Z by nia; nia).
  all: match goal with |- (if ?d then _ else _) = true <-> _ => destruct d as [L | L] end;
    (split; [first [discriminate | intros _; split; [exact Sh |]; split; [exact P |]; lra] | first [reflexivity | intros (_ & _ & H); exfalso; apply L; lra]]).
Qed.

Lemma neighborhood_spec : forall M j, share_face M j -> In j (neighborhood M).
Proof.
  intros [i1 i2] [j1 j2] H. unfold share_face in H. cbn [fst snd] in H.
  unfold neighborhood. apply in_flat_map. exists (j2 - i2)%Z. split.
  - assert (j2 - i2 = -1 \/ j2 - i2 = 0 \/ j2 - i2 = 1)%Z as [-> | [-> | ->]] by lia; cbn [In]; auto.
  - apply in_map_iff. exists (j1 - i1)%Z. cbn [fst snd]. split; [f_equal; lia |].
    assert (j1 - i1 = -1 \/ j1 - i1 = 0 \/ j1 - i1 = 1)%Z as [-> | [-> | ->]] by lia; cbn [In]; auto.
Qed.

Lemma neighbors_spec : forall geom M j, In j (neighbors geom M) <-> seen geom M j.
Proof.
  intros geom M j. unfold neighbors. rewrite filter_In, IsConnected_spec. split; [intros [_ H]; exact H |].
  intro H. split; [apply neighborhood_spec; apply H | exact H].
Qed.

Lemma centroid_position : forall geom i dx, GetAbsoluteVolumeCentroid geom i dx = position i (volume_centroid geom i) dx.
Proof. intros. unfold GetAbsoluteVolumeCentroid, position. f_equal; ring. Qed.

Lemma neighbor_constraints_spec : forall geom u D dx M j l1 l2,
  feasible (neighbor_constraints geom u D dx M j) (l1, l2) <->
  between (u M) (linear_value (u M) (position M (volume_centroid geom M) dx) (l1 * fst D, l2 * snd D) (position j (volume_centroid geom j) dx)) (u j).
Proof.
  intros. unfold neighbor_constraints, linear_value, between. rewrite !centroid_position.
  generalize (position j (volume_centroid geom j) dx), (position M (volume_centroid geom M) dx). intros [xj yj] [xM yM]. destruct D as [D1 D2].
  cbn [fst snd]. set (e := l1 * D1 * (xj - xM) + l2 * D2 * (yj - yM)).
  assert (E : (xj - xM) * D1 * l1 + (yj - yM) * D2 * l2 = e) by (unfold e; ring).
  assert (E' : - ((xj - xM) * D1) * l1 + - ((yj - yM) * D2) * l2 = - e) by (unfold e; ring).
  replace (u M + l1 * D1 * (xj - xM) + l2 * D2 * (yj - yM)) with (u M + e) by (unfold e; ring).
  destruct (Rlt_dec (u j) (u M)) as [L | L].
  - rewrite Rmin_right, Rmax_left by lra. split.
    + intro F. pose proof (F _ (or_introl eq_refl)) as H1. pose proof (F _ (or_intror (or_introl eq_refl))) as H2. cbn [holds] in *.
      rewrite E in H1. rewrite E' in H2. lra.
    + intros H k [<- | [<- | []]]; cbn [holds]; rewrite ?E, ?E'; lra.
  - rewrite Rmin_left, Rmax_right by lra. split.
    + intro F. pose proof (F _ (or_introl eq_refl)) as H1. pose proof (F _ (or_intror (or_introl eq_refl))) as H2. cbn [holds] in *.
      rewrite E' in H1. rewrite E in H2. lra.
    + intros H k [<- | [<- | []]]; cbn [holds]; rewrite ?E, ?E'; lra.
Qed.

Definition all_constraints geom u D dx M := box_constraints ++ flat_map (neighbor_constraints geom u D dx M) (neighbors geom M).

Lemma all_constraints_spec : forall geom u D dx M l1 l2,
  feasible (all_constraints geom u D dx M) (l1, l2) <->
  0 <= l1 <= 1 /\ 0 <= l2 <= 1 /\ monotone geom u dx M (l1 * fst D, l2 * snd D).
Proof.
  intros. unfold all_constraints. split.
  - intro F.
    pose proof (F _ ltac:(apply in_or_app; left; left; reflexivity)) as B1.
    pose proof (F _ ltac:(apply in_or_app; left; right; left; reflexivity)) as B2.
    pose proof (F _ ltac:(apply in_or_app; left; right; right; left; reflexivity)) as B3.
    pose proof (F _ ltac:(apply in_or_app; left; right; right; right; left; reflexivity)) as B4.
    cbn [holds] in *. split; [lra |]. split; [lra |]. intros j Hj. apply neighbor_constraints_spec.
    intros k Hk. apply F. apply in_or_app. right. apply in_flat_map. exists j. split; [apply neighbors_spec; exact Hj | exact Hk].
  - intros (H1 & H2 & Mo) k Hk. apply in_app_or in Hk as [Hk | Hk].
    + destruct Hk as [<- | [<- | [<- | [<- | []]]]]; cbn [holds]; lra.
    + apply in_flat_map in Hk as (j & Hj & Hk). apply neighbors_spec in Hj. specialize (Mo j Hj).
      apply neighbor_constraints_spec in Mo. exact (Mo k Hk).
Qed.

Lemma constraints_count : forall geom u D dx M, (length (all_constraints geom u D dx M) < 100)%nat.
Proof.
  intros. unfold all_constraints. rewrite app_length.
  assert (H : forall l : list index, length (flat_map (neighbor_constraints geom u D dx M) l) = (2 * length l)%nat).
  { induction l as [| j l IH]; [reflexivity |]. cbn [flat_map]. rewrite app_length, IH. unfold neighbor_constraints. destruct (Rlt_dec _ _); cbn [length]; lia. }
  rewrite H. assert (L : (length (neighbors geom M) <= 9)%nat).
  { unfold neighbors. pose proof (filter_incl_length _ (IsConnected geom M) (fun _ => true) (neighborhood M) ltac:(auto)) as L.
    etransitivity; [exact L |]. cbn [neighborhood flat_map map app filter length]. lia. }
  cbn [box_constraints length]. lia.
Qed.

(** The limiter always succeeds and changes only the gradient in its cell.  The new gradient is the old one with reduced
    components, predicts at the centroids of the neighbours values between those of the cells, and is the largest of all
    such gradients. *)
Theorem C100_limited : forall grad u geom M dx, exists grad',
  LimitGradientsAtIndex grad u geom M dx = Some grad'
  /\ (forall i, i <> M -> grad' i = grad i)
  /\ reduced (grad' M) (grad M)
  /\ monotone geom u dx M (grad' M)
  /\ forall h, reduced h (grad M) -> monotone geom u dx M h -> size h <= size (grad' M).
Proof.
  intros grad u geom M dx. unfold LimitGradientsAtIndex. cbv zeta.
  set (D := grad M). fold (all_constraints geom u D dx M).
  set (c := (- Rabs (fst D), - Rabs (snd D))).
  destruct (C99_bounded 100 (0, 0) c (all_constraints geom u D dx M) (- (Rabs (fst D) + Rabs (snd D)))) as ([l1 l2] & E & F & O).
  - apply all_constraints_spec. split; [lra |]. split; [lra |]. intros j _. unfold linear_value, between. cbn [fst snd].
    replace (u M + 0 * fst D * (fst (position j (volume_centroid geom j) dx) - fst (position M (volume_centroid geom M) dx))
      + 0 * snd D * (snd (position j (volume_centroid geom j) dx) - snd (position M (volume_centroid geom M) dx))) with (u M) by ring.
    split; [apply Rmin_l | apply Rmax_l].
  - unfold all_constraints, box_constraints. cbn [app starting_vertex tight]. lra.
  - apply constraints_count.
  - intros [z1 z2] Fz. apply all_constraints_spec in Fz as (B1 & B2 & _). unfold c. cbn [cost].
    pose proof (Rabs_pos (fst D)). pose proof (Rabs_pos (snd D)). nra.
  - rewrite E. eexists. split; [reflexivity |]. apply all_constraints_spec in F as (B1 & B2 & Mo). cbn [fst snd].
    rewrite !Z.eqb_refl. cbn [andb]. split; [| split; [| split]].
    + intros [i1 i2] Hi. destruct M as [M1 M2]. cbn [fst snd]. destruct (Z.eqb_spec i1 M1); [| reflexivity].
      destruct (Z.eqb_spec i2 M2); [| reflexivity]. exfalso. apply Hi. subst. reflexivity.
    + exists l1, l2. split; [exact B1 |]. split; [exact B2 | reflexivity].
    + exact Mo.
    + intros h (k1 & k2 & K1 & K2 & ->) Mh. specialize (O (k1, k2)). unfold c in O. cbn [cost] in O.
      assert (Fk : feasible (all_constraints geom u D dx M) (k1, k2)) by (apply all_constraints_spec; auto).
      specialize (O Fk). unfold size. cbn [fst snd]. rewrite !Rabs_mult, (Rabs_pos_eq k1), (Rabs_pos_eq k2), (Rabs_pos_eq l1), (Rabs_pos_eq l2) by lra. lra.
Qed.
Print Assumptions C100_limited.

(** A gradient which respects the neighbours is not changed. *)
Theorem C100_unchanged : forall grad u geom M dx, monotone geom u dx M (grad M) ->
  exists grad', LimitGradientsAtIndex grad u geom M dx = Some grad' /\ forall i, grad' i = grad i.
Proof.
  intros grad u geom M dx Mo. destruct (C100_limited grad u geom M dx) as (grad' & E & O & (l1 & l2 & B1 & B2 & R) & _ & Max).
  exists grad'. split; [exact E |]. intro i.
  assert (Hd : {i = M} + {i <> M}) by (decide equality; apply Z.eq_dec). destruct Hd as [-> | N]; [| exact (O i N)].
  specialize (Max (grad M)). assert (Rd : reduced (grad M) (grad M)).
  { exists 1, 1. split; [lra |]. split; [lra |]. rewrite !Rmult_1_l. destruct (grad M); reflexivity. }
  specialize (Max Rd Mo). rewrite R in *. revert Max. destruct (grad M) as [g1 g2]. unfold size. cbn [fst snd].
  rewrite !Rabs_mult, (Rabs_pos_eq l1), (Rabs_pos_eq l2) by lra. intro Max.
  pose proof (Rabs_pos g1). pose proof (Rabs_pos g2).
  assert (A1 : (1 - l1) * Rabs g1 = 0) by nra. assert (A2 : (1 - l2) * Rabs g2 = 0) by nra.
  assert (C : forall l g, (1 - l) * Rabs g = 0 -> l * g = g).
  { intros l g A. apply Rmult_integral in A as [A | A]; [replace l with 1 by lra; ring |].
    assert (g = 0) by (destruct (Req_dec g 0) as [Hg | Hg]; [exact Hg | exfalso; exact (Rabs_no_R0 g Hg A)]). subst g. ring. }
  rewrite (C _ _ A1), (C _ _ A2). reflexivity.
Qed.
Print Assumptions C100_unchanged.

(** Between two opposite neighbours which are both not smaller, or both not larger, than the cell, the limited gradient
    vanishes in that direction. *)
Theorem C100_extremum : forall grad u geom M dx i j k grad',
  LimitGradientsAtIndex grad u geom M dx = Some grad' ->
  seen geom M i -> seen geom M j -> 0 < k ->
  (let xM := position M (volume_centroid geom M) dx in
   let xi := position i (volume_centroid geom i) dx in
   let xj := position j (volume_centroid geom j) dx in
   fst xj - fst xM = - k * (fst xi - fst xM) /\ snd xj - snd xM = - k * (snd xi - snd xM)) ->
  (u M <= u i /\ u M <= u j) \/ (u i <= u M /\ u j <= u M) ->
  linear_value (u M) (position M (volume_centroid geom M) dx) (grad' M) (position i (volume_centroid geom i) dx) = u M.
Proof.
  intros grad u geom M dx i j k grad' E Hi Hj K Op Ex.
  destruct (C100_limited grad u geom M dx) as (grad'' & E' & _ & _ & Mo & _). rewrite E in E'. injection E' as <-.
  pose proof (Mo i Hi) as Bi. pose proof (Mo j Hj) as Bj. revert Op Bi Bj. cbv zeta. unfold linear_value, between.
  generalize (position i (volume_centroid geom i) dx), (position j (volume_centroid geom j) dx), (position M (volume_centroid geom M) dx).
  intros [xi yi] [xj yj] [xM yM]. destruct (grad' M) as [g1 g2]. cbn [fst snd]. intros [O1 O2] Bi Bj. rewrite O1, O2 in Bj.
  set (e := g1 * (xi - xM) + g2 * (yi - yM)).
  replace (u M + g1 * (xi - xM) + g2 * (yi - yM)) with (u M + e) in * by (unfold e; ring).
  replace (u M + g1 * (- k * (xi - xM)) + g2 * (- k * (yi - yM))) with (u M - k * e) in Bj by (unfold e; ring).
  destruct Ex as [[U1 U2] | [U1 U2]].
  - rewrite Rmin_left in Bi, Bj by lra. assert (e = 0) by nra. lra.
  - rewrite Rmax_left in Bi, Bj by lra. assert (e = 0) by nra. lra.
Qed.
Print Assumptions C100_extremum.

(** A cut cell at (0, 0) whose wall to the left hides the cell (-1, 0).  The gradient (2, 3) is too steep for the neighbour
    on the right, whose value is larger by one, and vanishes in the other direction because the cells below and above are
    both larger. *)
Definition wall_geometry : geometry :=
  mkGeometry (fun _ => 1) (fun _ => (0, 0)) (fun _ => (- (1 / 2), 0)) (fun _ => (-1, 0)).
Definition bowl (i : index) : R := if (fst i =? 1)%Z then 1 else if (snd i =? 0)%Z then 0 else 5.

Example C100_example : seen wall_geometry (0, 0)%Z (1, 0)%Z /\ seen wall_geometry (0, 0)%Z (0, 1)%Z /\ seen wall_geometry (0, 0)%Z (0, -1)%Z
  /\ ~ seen wall_geometry (0, 0)%Z (-1, 0)%Z
  /\ ~ monotone wall_geometry bowl (1, 1) (0, 0)%Z (2, 3)
  /\ monotone wall_geometry bowl (1, 1) (0, 0)%Z (1, 0)
  /\ exists grad', LimitGradientsAtIndex (fun _ => (2, 3)) bowl wall_geometry (0, 0)%Z (1, 1) = Some grad' /\ grad' (0, 0)%Z = (1, 0).
Proof.
  assert (S1 : seen wall_geometry (0, 0)%Z (1, 0)%Z) by (unfold seen, share_face, in_front; cbn [fst snd wall_geometry volume_fraction volume_centroid boundary_centroid boundary_normal Z.sub Z.opp Z.add]; split; [reflexivity | lra]).
  assert (S2 : seen wall_geometry (0, 0)%Z (0, 1)%Z) by (unfold seen, share_face, in_front; cbn [fst snd wall_geometry volume_fraction volume_centroid boundary_centroid boundary_normal Z.sub Z.opp Z.add]; split; [reflexivity | lra]).
  assert (S3 : seen wall_geometry (0, 0)%Z (0, -1)%Z) by (unfold seen, share_face, in_front; cbn [fst snd wall_geometry volume_fraction volume_centroid boundary_centroid boundary_normal Z.sub Z.opp Z.add]; split; [reflexivity | lra]).
  assert (S4 : ~ seen wall_geometry (0, 0)%Z (-1, 0)%Z) by (unfold seen, share_face, in_front; cbn [fst snd wall_geometry volume_fraction volume_centroid boundary_centroid boundary_normal Z.sub Z.opp Z.add]; intros (_ & _ & H); lra).
  assert (V : forall g j, linear_value 0 (position (0, 0)%Z (0, 0) (1, 1)) g (position j (0, 0) (1, 1)) = fst g * IZR (fst j) + snd g * IZR (snd j)).
  { intros [g1 g2] [j1 j2]. unfold linear_value, position. cbn [fst snd]. ring. }
  assert (U0 : bowl (0, 0)%Z = 0) by reflexivity.
  split; [exact S1 |]. split; [exact S2 |]. split; [exact S3 |]. split; [exact S4 |].
  assert (Mo : monotone wall_geometry bowl (1, 1) (0, 0)%Z (1, 0)).
  { intros [j1 j2] Hj. rewrite U0. cbn [wall_geometry volume_centroid]. rewrite V. cbn [fst snd].
    pose proof Hj as (Sh & _). unfold share_face in Sh. cbn [fst snd] in Sh.
    assert (Cs : ((j1, j2) = (1, 0) \/ (j1, j2) = (-1, 0) \/ (j1, j2) = (0, 1) \/ (j1, j2) = (0, -1))%Z).
    { assert ((j1 = 0 /\ (j2 = 1 \/ j2 = -1)) \/ (j2 = 0 /\ (j1 = 1 \/ j1 = -1)))%Z as [[-> [-> | ->]] | [-> [-> | ->]]] by lia; auto. }
    destruct Cs as [Cs | [Cs | [Cs | Cs]]]; injection Cs as -> ->; [| contradiction | |];
      unfold between, bowl; cbn [fst snd Z.eqb Pos.eqb]; rewrite Rmin_left, Rmax_right by lra; lra. }
  split; [| split; [exact Mo |]].
  - intro H. specialize (H _ S1). rewrite U0 in H. cbn [wall_geometry volume_centroid] in H. rewrite V in H. cbn [fst snd] in H.
    unfold between, bowl in H. cbn [fst snd Z.eqb Pos.eqb] in H. rewrite Rmin_left, Rmax_right in H by lra. lra.
  - destruct (C100_limited (fun _ => (2, 3)) bowl wall_geometry (0, 0)%Z (1, 1)) as (g & E & _ & (l1 & l2 & B1 & B2 & R) & Mg & Max).
    exists g. split; [exact E |]. cbn [fst snd] in R.
    pose proof (Mg _ S1) as G1. pose proof (Mg _ S2) as G2. pose proof (Mg _ S3) as G3. rewrite U0 in G1, G2, G3.
    cbn [wall_geometry volume_centroid] in G1, G2, G3. rewrite V in G1, G2, G3. rewrite R in *. cbn [fst snd] in *.
    unfold between, bowl in G1, G2, G3. cbn [fst snd Z.eqb Pos.eqb] in G1, G2, G3.
    rewrite Rmin_left, Rmax_right in G1, G2, G3 by lra.
    assert (Hh : reduced (1, 0) (2, 3)) by (exists (1 / 2), 0; split; [lra |]; split; [lra |]; cbn [fst snd]; f_equal; lra).
    specialize (Max _ Hh Mo). unfold size in Max. cbn [fst snd] in Max. rewrite Rabs_R1, Rabs_R0, !Rabs_pos_eq in Max by lra.
    f_equal; lra.
Qed.
