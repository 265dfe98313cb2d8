(** C101: the gradients in cut cells. *)
From Coq Require Import List Reals ZArith Bool Lra Lia Psatz.
From Verif Require LimiterModel.
From Verif Require Import MdLimiterModel MdLimiterSpec MdLimiterProofs MdLimiterProperties MdGradientModel MdGradientSpec MdGradientProofs.
Import ListNotations.
Local Open Scope R_scope.

(** Linear data: the gradient of the linear function is computed and the limiter keeps it, in a regular cell and in a cut
    cell whose open faces lead to enough fluid. *)
Theorem C101_linear : forall slope face geom dx u a g i,
  0 < fst dx /\ 0 < snd dx ->
  (forall m s h, 0 < h -> slope (m - s * h) m (m + s * h) h = s) ->
  (forall j, volume_fraction geom j = 1 -> volume_centroid geom j = (0, 0)) ->
  linear_in_fluid geom dx u a g -> 0 < volume_fraction geom i ->
  all_regular geom i \/ (comparable face geom i /\ (three_open face geom dx i \/ corner_open face geom dx i)) ->
  ComputeGradients slope face geom u u dx i = Some g.
Proof.
  intros slope face geom dx u a g i Hdx Hs Hr L Hi H. unfold ComputeGradients.
  assert (E : CellGradient slope face geom u dx i = Some g).
  { destruct H as [H | [C [H | H]]];
      [apply (regular_exact slope face geom dx u a g i Hdx Hs Hr L Hi H)
      |apply (three_open_exact slope face geom dx u a g i Hdx Hs Hr L Hi C H)
      |apply (corner_open_exact slope face geom dx u a g i Hdx Hs Hr L Hi C H)]. }
  rewrite E. apply (limit_exact geom dx u a g i L Hi).
Qed.
Print Assumptions C101_linear.

(** In solid cells the gradient is zero. *)
Theorem C101_solid : forall slope face geom u w dx i, volume_fraction geom i = 0 ->
  ComputeGradients slope face geom u w dx i = Some (0, 0).
Proof.
  intros slope face geom u w dx i E. unfold ComputeGradients, CellGradient. rewrite E.
  unfold is_one. destruct (Req_EM_T 0 1) as [H | _]; [lra |]. cbn [andb]. destruct (Req_EM_T 0 0) as [_ | H]; [| lra].
  unfold LimitCell. rewrite E. rewrite (proj2 (positive_false 0)) by lra. reflexivity.
Qed.
Print Assumptions C101_solid.

(** Whatever the data: if a gradient is computed, the linear function through the centroid of the cell predicts for the
    neighbours values between those of the cell and the neighbour. *)
Theorem C101_monotone : forall slope face geom u dx i g, 0 < volume_fraction geom i ->
  ComputeGradients slope face geom u u dx i = Some g -> monotone geom u dx i g.
Proof.
  intros slope face geom u dx i g Hi E. unfold ComputeGradients in E.
  destruct (CellGradient slope face geom u dx i) as [h |]; [| discriminate].
  unfold LimitCell in E. rewrite (proj2 (positive_spec _) Hi) in E.
  destruct (C100_limited (fun _ => h) u geom i dx) as (grad' & E' & _ & _ & M & _). rewrite E' in E. injection E as <-. exact M.
Qed.
Print Assumptions C101_monotone.

(** A wall along a diagonal: the cell (0, 0) and all (k, k) are halved, the fluid is below the diagonal. *)
Definition diagonal : geometry :=
  mkGeometry (fun j => if (fst j =? snd j)%Z then 1 / 2 else if (snd j <? fst j)%Z then 1 else 0)
             (fun j => if (fst j =? snd j)%Z then (1 / 6, - (1 / 6)) else (0, 0))
             (fun _ => (0, 0)) (fun j => if (fst j =? snd j)%Z then (Ropp 1, 1) else (0, 0)).
Definition diagonal_faces (d : nat) (j : Z * Z) : R :=
  match d with
  | O => if (snd j <? fst j)%Z then 1 else 0
  | _ => if (snd j <=? fst j)%Z then 1 else 0
  end.
(** The one dimensional slopes of the library, with the van Leer limiter *)
Definition central : R -> R -> R -> R -> R := SlopeOfDifferences (LimiterModel.CentralDifference LimiterModel.VanLeerLimiter).

Lemma central_linear : forall m s h, 0 < h -> central (m - s * h) m (m + s * h) h = s.
Proof.
  intros m s h H. unfold central, SlopeOfDifferences, LimiterModel.CentralDifference, LimiterModel.VanLeerLimiter.
  replace ((m - (m - s * h)) / h) with s by (field; lra). replace ((m + s * h - m) / h) with s by (field; lra).
  destruct (Rle_dec (s * s) 0) as [L | L]; [nra |]. assert (s <> 0) by (intros ->; lra). replace (s / s) with 1 by (field; assumption). field.
Qed.

Example C101_example : forall a g1 g2,
  let u := fun j => a + g1 * fst (centroid diagonal (1, 1) j) + g2 * snd (centroid diagonal (1, 1) j) in
  (0 < fst (1, 1) /\ 0 < snd (1, 1)) /\ (forall m s h, 0 < h -> central (m - s * h) m (m + s * h) h = s)
  /\ (forall j, volume_fraction diagonal j = 1 -> volume_centroid diagonal j = (0, 0))
  /\ linear_in_fluid diagonal (1, 1) u a (g1, g2) /\ 0 < volume_fraction diagonal (0, 0)%Z
  /\ comparable diagonal_faces diagonal (0, 0)%Z /\ corner_open diagonal_faces diagonal (1, 1) (0, 0)%Z
  /\ all_regular diagonal (5, 0)%Z
  /\ ComputeGradients central diagonal_faces diagonal u u (1, 1) (0, 0)%Z = Some (g1, g2).
Proof.
  intros a g1 g2 u.
  assert (H1 : 0 < fst (1, 1) /\ 0 < snd (1, 1)) by (cbn [fst snd]; lra).
  assert (H2 : forall m s h, 0 < h -> central (m - s * h) m (m + s * h) h = s) by exact central_linear.
  assert (H3 : forall j, volume_fraction diagonal j = 1 -> volume_centroid diagonal j = (0, 0)).
  { intros j. cbn [diagonal volume_fraction volume_centroid]. destruct (_ =? _)%Z; [lra | reflexivity]. }
  assert (H4 : linear_in_fluid diagonal (1, 1) u a (g1, g2)) by (intros j _; reflexivity).
  assert (H5 : 0 < volume_fraction diagonal (0, 0)%Z) by (cbn; lra).
  assert (H6 : comparable diagonal_faces diagonal (0, 0)%Z).
  { intros s t [<- | [<- | [<- | [<- | []]]]] [<- | [<- | [<- | [<- | []]]]]; cbn; lra. }
  assert (H7 : corner_open diagonal_faces diagonal (1, 1) (0, 0)%Z).
  { exists (1, 0%nat, (1, 0)%Z), (1, 1%nat, (0, -1)%Z). cbn [sides diagonal_faces fst snd].
    change (0 <? 0 + 1)%Z with true. change (0 <=? 0)%Z with true. cbn [Z.ltb Z.leb Z.compare Z.add Z.sub Z.opp]. 
    split; [right; left; reflexivity |]. split; [right; right; left; reflexivity |]. split; [reflexivity |]. split; [reflexivity |]. split.
    - intros r [<- | [<- | [<- | [<- | []]]]]; unfold is_open; cbn; (split; [intro; first [left; reflexivity | right; reflexivity | exfalso; lra]
        | intros [E | E]; try lra; exfalso; injection E; intros; try lra; discriminate]).
    - cbv zeta. cbn [fst snd]. split; [cbn; lra |]. split; [cbn; lra |]. split; [cbn; lra |].
      exists (1, 0)%Z, (0, -1)%Z. split; [left; reflexivity |]. split; [right; left; reflexivity |].
      unfold centroid, position, diagonal. cbn [volume_centroid fst snd Z.eqb Pos.eqb]. lra. }
  assert (H8 : all_regular diagonal (5, 0)%Z) by (cbn; lra).
  split; [exact H1 |]. split; [exact H2 |]. split; [exact H3 |]. split; [exact H4 |]. split; [exact H5 |]. split; [exact H6 |].
  split; [exact H7 |]. split; [exact H8 |].
  apply (C101_linear central diagonal_faces diagonal (1, 1) u a (g1, g2) (0, 0)%Z); auto.
Qed.

(** A wall below the row 0, which has the fraction q of fluid: three faces are open. *)
Definition floor (q : R) : geometry :=
  mkGeometry (fun j => if (snd j =? 0)%Z then q else if (0 <? snd j)%Z then 1 else 0)
             (fun j => if (snd j =? 0)%Z then (0, (1 - q) / 2) else (0, 0))
             (fun j => (0, 1 / 2 - q)) (fun j => if (snd j =? 0)%Z then (0, Ropp 1) else (0, 0)).
Definition floor_faces (q : R) (d : nat) (j : Z * Z) : R :=
  match d with
  | O => if (snd j =? 0)%Z then q else if (0 <? snd j)%Z then 1 else 0
  | _ => if (0 <? snd j)%Z then 1 else 0
  end.

Example C101_example_floor : forall q, 0 < q < 1 ->
  0 < volume_fraction (floor q) (0, 0)%Z /\ comparable (floor_faces q) (floor q) (0, 0)%Z
  /\ three_open (floor_faces q) (floor q) (1, 1) (0, 0)%Z.
Proof.
  intros q Hq. split; [cbn; lra |]. split.
  - intros s t [<- | [<- | [<- | [<- | []]]]] [<- | [<- | [<- | [<- | []]]]]; cbn; lra.
  - exists [(q, 0%nat, (-1, 0)%Z); (q, 0%nat, (1, 0)%Z); (1, 1%nat, (0, 1)%Z)].
    split; [cbn [length]; lia |]. split.
    { repeat constructor; cbn [In]; intuition; try discriminate; match goal with E : _ = _ |- _ => injection E; intros; lia end. }
    split; [| split; [| split]].
    + intros r [<- | [<- | [<- | []]]]; cbn; auto.
    + intros r [<- | [<- | [<- | [<- | []]]]]; unfold is_open; cbn; (split; [intro H; try lra; exfalso; intuition; match goal with E : _ = _ |- _ => injection E; intros; first [lra | discriminate] end | intro; first [exfalso; lra | auto]]).
    + intros r [<- | [<- | [<- | []]]]; cbn; lra.
    + exists (1, 0)%Z, (0, 1)%Z. split; [cbn; auto |]. split; [cbn; auto |].
      unfold centroid, position, floor. cbn [volume_centroid fst snd Z.eqb]. lra.
Qed.

(** ** Where the gradients are not computed *)

Lemma first_true : forall face geom i m n, beta face i n <= beta face i m -> alpha geom i n <= alpha geom i m -> comes_first face geom i m n = true.
Proof. intros face geom i m n H1 H2. unfold comes_first. destruct (Rle_dec _ _); [| contradiction]. destruct (Rle_dec _ _); [reflexivity | contradiction]. Qed.

Lemma first_false : forall face geom i m n, ~ (beta face i n <= beta face i m /\ alpha geom i n <= alpha geom i m) -> comes_first face geom i m n = false.
Proof. intros face geom i m n H. unfold comes_first. destruct (Rle_dec _ _); [| reflexivity]. destruct (Rle_dec _ _); [exfalso; apply H; split; assumption | reflexivity]. Qed.

Lemma sort_1032 : forall first, first 1%nat 0%nat = true -> first 2%nat 1%nat = false -> first 2%nat 0%nat = false ->
  first 3%nat 1%nat = false -> first 3%nat 2%nat = true -> first 3%nat 0%nat = false -> sort4 first = [1; 0; 3; 2]%nat.
Proof.
  intros first H1 H2 H3 H4 H5 H6. unfold sort4. cbn [fold_left]. unfold insert. rewrite H1, H2. cbn [rev app insert_back].
  rewrite H3. cbn [rev app]. rewrite H4. cbn [insert_back]. rewrite H5, H6. reflexivity.
Qed.

(** A channel of the width of one cell: two opposite faces are open.  The program stops at an assertion in every cell,
    although the flow along the channel is well defined. *)
Definition channel : geometry :=
  mkGeometry (fun j => if (snd j =? 0)%Z then 1 else 0) (fun _ => (0, 0)) (fun _ => (0, 0)) (fun _ => (0, 0)).
Definition channel_faces (d : nat) (j : Z * Z) : R := match d with O => if (snd j =? 0)%Z then 1 else 0 | _ => 0 end.

Theorem C101_channel_refuted : forall slope u w dx x, 0 < volume_fraction channel (x, 0)%Z /\
  ComputeGradients slope channel_faces channel u w dx (x, 0)%Z = None.
Proof.
  intros slope u w dx x. split; [cbn; lra |]. unfold ComputeGradients.
  assert (Es : sort4 (comes_first channel_faces channel (x, 0%Z)) = [1; 0; 3; 2]%nat).
  { apply sort_1032; first [apply first_true | apply first_false]; unfold alpha;
      cbn [beta neighbor fst snd channel volume_fraction channel_faces Z.eqb Z.add Z.sub Z.opp]; lra. }
  unfold CellGradient. rewrite Es. cbn [nth beta edge_direction neighbor fst snd channel volume_fraction channel_faces Z.eqb Z.add Z.sub Z.opp].
  unfold is_one. destruct (Req_EM_T 0 1) as [H | _]; [lra |]. rewrite !andb_false_r. destruct (Req_EM_T 1 0) as [H | _]; [lra |].
  rewrite (proj2 (positive_false 0)) by lra. rewrite (proj2 (positive_spec 1)) by lra. reflexivity.
Qed.
Print Assumptions C101_channel_refuted.

(** A plate which is thinner than a cell: in the column 0 the left half of each cell is solid, the left faces are closed, and
    the column on the other side has more fluid than the cut cells.  Three faces are open and lead to fluid, but the closed
    face comes second in the order of the faces: the program stops at an assertion. *)
Definition plate : geometry :=
  mkGeometry (fun j => if (fst j =? 0)%Z then 1 / 2 else if (fst j =? -1)%Z then 95 / 100 else 1)
             (fun j => if (fst j =? 0)%Z then (1 / 4, 0) else if (fst j =? -1)%Z then (- (25 / 1000), 0) else (0, 0))
             (fun j => (0, 0)) (fun j => if (fst j =? 0)%Z then (Ropp 1, 0) else (0, 0)).
Definition plate_faces (d : nat) (j : Z * Z) : R :=
  match d with
  | O => if (fst j =? 0)%Z then 0 else 1
  | _ => if (fst j =? 0)%Z then 1 / 2 else if (fst j =? -1)%Z then 95 / 100 else 1
  end.

Theorem C101_plate_refuted : forall slope u w y,
  0 < volume_fraction plate (0, y)%Z /\ three_open plate_faces plate (1, 1) (0, y)%Z /\
  ComputeGradients slope plate_faces plate u w (1, 1) (0, y)%Z = None.
Proof.
  intros slope u w y. split; [cbn; lra |]. split.
  - exists [(1, 0%nat, (1, y)%Z); (1 / 2, 1%nat, (0, y - 1)%Z); (1 / 2, 1%nat, (0, y + 1)%Z)].
    split; [cbn [length]; lia |]. split.
    { repeat constructor; cbn [In]; intuition; try discriminate; match goal with E : _ = _ |- _ => injection E; intros; first [lia | lra] end. }
    split; [| split; [| split]].
    + intros r [<- | [<- | [<- | []]]]; cbn; auto.
    + intros r [<- | [<- | [<- | [<- | []]]]]; unfold is_open; cbn [plate_faces fst snd Z.eqb Z.add Z.sub Z.opp]; (split; [intro H; first [lra | exfalso; cbn [In] in H; intuition; match goal with E : _ = _ |- _ => injection E; intros; first [lra | lia | discriminate] end] | intro; first [exfalso; lra | cbn; auto]]).
    + intros r [<- | [<- | [<- | []]]]; cbn [snd plate volume_fraction fst Z.eqb]; lra.
    + exists (1, y)%Z, (0, y + 1)%Z. split; [cbn; auto |]. split; [cbn; auto |].
      unfold centroid, position, plate. cbn [volume_centroid fst snd Z.eqb]. rewrite plus_IZR. lra.
  - unfold ComputeGradients.
    assert (Es : sort4 (comes_first plate_faces plate (0%Z, y)) = [1; 0; 3; 2]%nat).
    { apply sort_1032; first [apply first_true | apply first_false]; unfold alpha;
        cbn [beta neighbor fst snd plate volume_fraction plate_faces Z.eqb Pos.eqb Z.add Z.sub Z.opp]; lra. }
    unfold CellGradient. rewrite Es. cbn [nth beta edge_direction neighbor fst snd plate volume_fraction plate_faces Z.eqb Pos.eqb Z.add Z.sub Z.opp].
    unfold is_one. destruct (Req_EM_T (1 / 2) 1) as [H | _]; [lra |]. cbn [andb]. destruct (Req_EM_T (1 / 2) 0) as [H | _]; [lra |].
    rewrite (proj2 (positive_false 0)) by lra. rewrite (proj2 (positive_spec (1 / 2))) by lra. cbn [negb]. rewrite andb_false_r. reflexivity.
Qed.
Print Assumptions C101_plate_refuted.

(** Gradients of primitive variables are limited with the conserved variables of the same number: the gradient of the
    velocity is compared with the momentum.  With the density 1/2 the exact gradient 1 of a linear velocity is at least halved. *)
Definition everywhere : geometry := mkGeometry (fun _ => 1) (fun _ => (0, 0)) (fun _ => (0, 0)) (fun _ => (0, 0)).

Theorem C101_primitive_refuted : forall face i,
  let velocity := fun j : Z * Z => fst (centroid everywhere (1, 1) j) in
  let momentum := fun j => 1 / 2 * velocity j in
  linear_in_fluid everywhere (1, 1) velocity 0 (1, 0) /\
  exists g, ComputeGradients central face everywhere velocity momentum (1, 1) i = Some g /\ fst g <= 1 / 2.
Proof.
  intros face i velocity momentum.
  assert (L : linear_in_fluid everywhere (1, 1) velocity 0 (1, 0)) by (intros j _; unfold velocity; cbn [fst snd]; ring).
  split; [exact L |]. unfold ComputeGradients.
  assert (H2 : forall m s h, 0 < h -> central (m - s * h) m (m + s * h) h = s) by exact central_linear.
  rewrite (regular_exact central face everywhere (1, 1) velocity 0 (1, 0) i ltac:(cbn [fst snd]; lra) H2 ltac:(intros; reflexivity) L ltac:(cbn; lra)).
  2: { destruct i as [x y]. cbn. repeat split; reflexivity. }
  unfold LimitCell. cbn [everywhere volume_fraction]. rewrite (proj2 (positive_spec 1)) by lra.
  destruct (C100_limited (fun _ => (1, 0)) momentum everywhere i (1, 1)) as (grad' & E & _ & _ & M & _).
  fold everywhere. rewrite E. exists (grad' i). split; [reflexivity |]. destruct i as [x y].
  specialize (M (x + 1, y)%Z). assert (Se : seen everywhere (x, y) (x + 1, y)%Z).
  { unfold seen, share_face, in_front. cbn [everywhere volume_fraction boundary_normal boundary_centroid volume_centroid fst snd].
    split; [lia |]. split; lra. }
  specialize (M Se). unfold between, linear_value, momentum, velocity, centroid, position in M.
  cbn [everywhere volume_centroid fst snd] in M. rewrite plus_IZR in M. destruct M as [_ M].
  rewrite Rmax_right in M by lra. lra.
Qed.
Print Assumptions C101_primitive_refuted.
