(** C102: regular stencils.  C103: stencils at the wall.  C104: reference states.  C105: singly shielded stencils. *)
From Coq Require Import List Reals ZArith Bool Lra Lia Psatz FunctionalExtensionality.
From Verif Require Import MdLimiterModel MdLimiterSpec CutCellModel CutCellProofs HGridModel HGridSpec HGridProofs.
Import ListNotations.
Local Open Scope R_scope.

(** ** C102 *)

(** Linear data in each of the two cells: the two states at a face are the values of the linear function of the left cell half a
    cell to the left and of the linear function of the right cell half a cell to the right of the centroid of its unshielded
    part, each with its slope. *)
Theorem C102_linear : forall S K (extract : S -> K -> R) complete c geom shL shR face dx d a g a' g',
  (forall q k, extract (complete q) k = q k) ->
  exact_in S K extract c geom dx a g (previous d face) -> exact_in S K extract c geom dx a' g' face ->
  let st := ReconstructRegularStencil S K extract complete c geom shL shR face dx d in
  let x := GetAbsoluteUnshieldedCentroid geom shL shR face dx d in
  forall k, extract (left_state _ _ st) k = affine (a k) (g k) (point d (coordinate d x - coordinate d dx / 2) (tangential d x))
         /\ extract (right_state _ _ st) k = affine (a' k) (g' k) (point d (coordinate d x + coordinate d dx / 2) (tangential d x))
         /\ left_slope _ _ st k = coordinate d (g k) /\ right_slope _ _ st k = coordinate d (g' k).
Proof.
  intros S K extract complete c geom shL shR face dx d a g a' g' EC HL HR st x k.
  assert (HL' : exact_in S K extract c geom dx a g (LeftTo d face)) by (destruct d; exact HL).
  unfold st, ReconstructRegularStencil, RightTo. cbv zeta. cbn [left_state right_state left_slope right_slope]. fold x.
  rewrite !EC, (value_exact S K extract c geom dx a g _ _ k HL'), (value_exact S K extract c geom dx a' g' _ _ k HR).
  rewrite (grad_exact S K extract c geom dx a g _ d k HL'), (grad_exact S K extract c geom dx a' g' _ d k HR).
  repeat split; try reflexivity; f_equal; destruct d; unfold point, coordinate, tangential, vadd, vmul, at_dir, unit_vector; cbn [fst snd]; f_equal; lra.
Qed.
Print Assumptions C102_linear.

(** At a completely open face of which a part is shielded by the left (or the right) cell, this centroid is in the middle of
    the part that is not shielded.  The stored normal points into the solid. *)
Theorem C102_centroid_partial : forall geom shL shR face dx d b below,
  0 <= b <= 1 ->
  (shL d face = ssL (fractions_single (b, 1, 1)) /\ shR d face = ssR (fractions_single (b, 1, 1))
   /\ below = (if Rlt_dec (tangential d (boundary_normal geom (previous d face))) 0 then true else false)
   \/ shL d face = ssL (fractions_single (1, 1, b)) /\ shR d face = ssR (fractions_single (1, 1, b))
   /\ below = (if Rlt_dec (tangential d (boundary_normal geom face)) 0 then true else false)) ->
  let x := GetAbsoluteUnshieldedCentroid geom shL shR face dx d in
  coordinate d x = IZR (number d face) * coordinate d dx
  /\ tangential d x = (IZR (tangential_number d face) + middle below b) * tangential d dx.
Proof.
  intros geom shL shR face dx d b below Hb H x.
  assert (F : ssL (fractions_single (b, 1, 1)) = 1 - b /\ ssR (fractions_single (b, 1, 1)) = 0 /\ ssL (fractions_single (1, 1, b)) = 0 /\ ssR (fractions_single (1, 1, b)) = 1 - b).
  { unfold fractions_single. cbn [ssL ssR]. rewrite (Rmax_right 0 (1 - b)) by lra. rewrite (Rmax_left 0 (1 - 1)) by lra.
    rewrite (Rmin_right (1 - b) 0), (Rmin_left 0 (1 - b)) by lra. repeat split; lra. }
  destruct F as (F1 & F2 & F3 & F4). rewrite F1, F2, F3, F4 in H.
  assert (N : at_dir (other d) (boundary_normal geom (LeftTo d face)) = tangential d (boundary_normal geom (previous d face))
              /\ at_dir (other d) (boundary_normal geom (RightTo d face)) = tangential d (boundary_normal geom face)) by (destruct d; split; reflexivity).
  destruct N as [N1 N2]. unfold x, GetAbsoluteUnshieldedCentroid. cbv zeta. rewrite N1, N2.
  set (t1 := tangential d (boundary_normal geom (previous d face))) in *. set (t2 := tangential d (boundary_normal geom face)) in *. clearbody t1 t2.
  assert (M : let u := Intersect (unshielded_interval (shL d face) t1) (unshielded_interval (shR d face) t2) in (fst u + snd u) / 2 = middle below b).
  { cbv zeta. destruct H as [(-> & -> & ->) | (-> & -> & ->)]; unfold unshielded_interval, Intersect, middle;
      (destruct (Rlt_dec 0 0); [lra |]); destruct (Rlt_dec 0 (1 - b)); destruct (Rlt_dec _ 0); cbn [fst snd];
      unfold Rmax, Rmin; repeat destruct (Rle_dec _ _); lra. }
  cbv zeta in M. set (u := Intersect _ _) in *. clearbody u.
  destruct d; unfold coordinate, tangential, number, tangential_number; cbn [fst snd]; split; try ring; rewrite <- M; field.
Qed.
Print Assumptions C102_centroid_partial.

(** With a wall above y = 0 in the left cell, at whose right face the lower quarter is shielded: [1/4, 1] is unshielded. *)
Definition quarter_geometry : geometry :=
  mkGeometry (fun _ => 1) (fun _ => (0, 0)) (fun _ => (0, 0)) (fun i => if (fst i =? 0)%Z then (- (4 / 5), - (3 / 5)) else (0, 0)).
Example C102_centroid_example :
  let shL := fun d face => match d with O => if (fst face =? 1)%Z then 1 / 4 else 0 | _ => 0 end in
  let shR := fun (d : nat) (face : index) => 0 in
  shL 0%nat (1, 0)%Z = ssL (fractions_single (3 / 4, 1, 1)) /\ shR 0%nat (1, 0)%Z = ssR (fractions_single (3 / 4, 1, 1)) /\
  tangential 0 (GetAbsoluteUnshieldedCentroid quarter_geometry shL shR (1, 0)%Z (1, 1) 0) = (0 + (1 / 4 + 1) / 2) * 1.
Proof.
  intros shL shR.
  assert (F : ssL (fractions_single (3 / 4, 1, 1)) = 1 / 4 /\ ssR (fractions_single (3 / 4, 1, 1)) = 0).
  { unfold fractions_single. cbn [ssL ssR]. unfold Rmax, Rmin. repeat (destruct (Rle_dec _ _); try lra). }
  destruct F as [F1 F2]. split; [symmetry; exact F1 |]. split; [symmetry; exact F2 |].
  destruct (C102_centroid_partial quarter_geometry shL shR (1, 0)%Z (1, 1) 0%nat (3 / 4) true ltac:(lra)) as [_ H].
  - left. split; [rewrite F1; reflexivity |]. split; [rewrite F2; reflexivity |]. cbn [tangential previous boundary_normal quarter_geometry fst snd].
    destruct (Rlt_dec _ 0) as [_ | N]; [reflexivity | exfalso; apply N]. cbn. lra.
  - rewrite H. unfold middle, tangential, tangential_number. cbn [fst snd]. lra.
Qed.

(** If the face is partly closed the centroid is wrong, because the closed part is forgotten: a straight wall leaves 1/2, 3/4
    and 1 of three successive faces open.  The lower quarter of the middle face is closed, the next quarter is shielded from the left,
    and the upper half is unshielded; its middle is at 3/4, the code takes 5/8. *)
Theorem C102_closed_refuted : forall geom shL shR face dx,
  snd (boundary_normal geom (previous 0 face)) < 0 -> 0 < snd dx ->
  shL 0%nat face = ssL (fractions_single (1 / 2, 3 / 4, 1)) -> shR 0%nat face = ssR (fractions_single (1 / 2, 3 / 4, 1)) ->
  us (fractions_single (1 / 2, 3 / 4, 1)) = 1 / 2 /\
  let x := GetAbsoluteUnshieldedCentroid geom shL shR face dx 0 in
  snd x = (IZR (snd face) + 5 / 8) * snd dx /\ snd x <> (IZR (snd face) + middle true (1 / 2)) * snd dx.
Proof.
  intros geom shL shR face dx N D EL ER.
  assert (F : us (fractions_single (1 / 2, 3 / 4, 1)) = 1 / 2 /\ ssL (fractions_single (1 / 2, 3 / 4, 1)) = 1 / 4 /\ ssR (fractions_single (1 / 2, 3 / 4, 1)) = 0).
  { unfold fractions_single. cbn [us ssL ssR]. unfold Rmax, Rmin. repeat (destruct (Rle_dec _ _); try lra). }
  destruct F as (F0 & F1 & F2). rewrite F1 in EL. rewrite F2 in ER. split; [exact F0 |]. intro x.
  assert (E : snd x = (IZR (snd face) + 5 / 8) * snd dx).
  { unfold x, GetAbsoluteUnshieldedCentroid. cbv zeta. rewrite EL, ER. cbn [other at_dir snd fst LeftTo shift]. 
    change (fst face + -1, snd face)%Z with (previous 0 face). unfold unshielded_interval, Intersect.
    destruct (Rlt_dec 0 (1 / 4)); [| lra]. destruct (Rlt_dec 0 0); [lra |]. destruct (Rlt_dec (snd (boundary_normal geom (previous 0 face))) 0); [| contradiction].
    cbn [fst snd]. rewrite Rmax_left, Rmin_left by lra. field. }
  split; [exact E |]. rewrite E. unfold middle. nra.
Qed.
Print Assumptions C102_closed_refuted.

Example C102_closed_example :
  let geom := mkGeometry (fun _ => 1) (fun _ => (0, 0)) (fun _ => (0, 0)) (fun _ => (- (4 / 5), - (3 / 5))) in
  snd (boundary_normal geom (previous 0 (1, 0)%Z)) < 0 /\ 0 < snd (1, 1).
Proof. cbn [boundary_normal snd]. lra. Qed.

(** Linear data for one component with the slopes (2, 3). *)
Example C102_example :
  let geom := mkGeometry (fun _ => 1) (fun _ => (0, 0)) (fun _ => (0, 0)) (fun _ => (0, 0)) in
  let c := mkCells (unit -> R) unit (fun i _ => 1 + 2 * ((IZR (fst i) + 0 + 1 / 2) * 1) + 3 * ((IZR (snd i) + 0 + 1 / 2) * 1)) (fun _ _ => 2) (fun _ _ => 3) in
  (forall q k, (fun s : unit -> R => s) ((fun s : unit -> R => s) q) k = q k) /\
  exact_in _ _ (fun s => s) c geom (1, 1) (fun _ => 1) (fun _ => (2, 3)) (4, 5)%Z.
Proof. split; [reflexivity |]. intro k. unfold affine, position. cbn [states grad_x grad_y volume_centroid fst snd]. repeat split. Qed.

(** ** C103 *)

(** The value at x of the linear function through the reference state q at x0 *)
Definition reference_value {S K : Type} (extract : S -> K -> R) (r : reference S K) (x0 x : vec) (k : K) : R :=
  let '(q, gx, gy) := r in extract q k + gx k * (fst x - fst x0) + gy k * (snd x - snd x0).

(** The wall on the left: the right state is the value of the reference function half a cell from the wall, the left state is
    the reflected value at the mirror image of the point half a cell behind the wall.  Mirrored if the wall is on the right. *)
Theorem C103_states : forall S K (extract : S -> K -> R) complete reflect geom face r x0 i h d old,
  let st := ReconstructEmbeddedBoundaryStencil S K extract complete reflect geom face r x0 i h d old in
  let b := position i (boundary_centroid geom i) h in
  let n := (- fst (boundary_normal geom i), - snd (boundary_normal geom i)) in
  let at_distance t := point d (coordinate d b + t * coordinate d h) (tangential d b) in
  (face d i < face d (next d i) ->
     right_state _ _ st = complete (reference_value extract r x0 (at_distance (1 / 2)))
     /\ left_state _ _ st = reflect (complete (reference_value extract r x0 (mirror b n (at_distance (- (1 / 2)))))) n)
  /\ (face d (next d i) < face d i ->
     left_state _ _ st = complete (reference_value extract r x0 (at_distance (- (1 / 2))))
     /\ right_state _ _ st = reflect (complete (reference_value extract r x0 (mirror b n (at_distance (1 / 2))))) n).
Proof.
  intros S K extract complete reflect geom face r x0 i h d old st b n at_distance.
  assert (B : GetAbsoluteBoundaryCentroid geom i h = b) by (unfold GetAbsoluteBoundaryCentroid, b, position; f_equal; ring).
  assert (N : GetBoundaryNormal geom i = n) by (unfold GetBoundaryNormal, n, vmul; f_equal; ring).
  assert (Sh : shift d i 1 = next d i) by (destruct d; reflexivity).
  assert (R : forall x, EvalAt S K extract complete r x0 x = complete (reference_value extract r x0 x)).
  { intro x. unfold EvalAt, reference_value, ApplyGradient, vsub. destruct r as [[q gx] gy]. f_equal. extensionality k. cbn [fst snd]. ring. }
  assert (P1 : forall s, vadd b (vmul (s * at_dir d h) (unit_vector d)) = at_distance s).
  { intro s. unfold vadd, vmul, at_distance, point, coordinate, tangential, at_dir, unit_vector. destruct d; cbn [fst snd]; f_equal; ring. }
  assert (P2 : vsub b (vmul (1 / 2 * at_dir d h) (unit_vector d)) = at_distance (- (1 / 2))).
  { unfold vsub, vmul, at_distance, point, coordinate, tangential, at_dir, unit_vector. destruct d; cbn [fst snd]; f_equal; ring. }
  set (er := vsub (unit_vector d) (vmul (2 * vdot (unit_vector d) n) n)).
  assert (M1 : vadd b (vmul (1 / 2 * at_dir d h) er) = mirror b n (at_distance (1 / 2))).
  { unfold er, mirror, vadd, vsub, vmul, vdot, at_distance, point, coordinate, tangential, at_dir, unit_vector. destruct d; cbn [fst snd]; f_equal; ring. }
  assert (M2 : vsub b (vmul (1 / 2 * at_dir d h) er) = mirror b n (at_distance (- (1 / 2)))).
  { unfold er, mirror, vsub, vmul, vdot, at_distance, point, coordinate, tangential, at_dir, unit_vector. destruct d; cbn [fst snd]; f_equal; ring. }
  unfold st, ReconstructEmbeddedBoundaryStencil. cbv zeta. rewrite B, N, Sh. fold er. rewrite !R, P1, P2, M1, M2.
  destruct r as [[q gx] gy]. split; intro L; destruct (Rlt_dec (face d i) (face d (next d i))); try lra; [split; reflexivity |].
  destruct (Rlt_dec (face d (next d i)) (face d i)); [split; reflexivity | contradiction].
Qed.
Print Assumptions C103_states.

(** The slopes: on the side of the fluid that of the reference function; behind the wall that of the mirrored, but not
    reflected, function.  For components which a reflection does not change (density, energy, pressure) this is the slope of
    the mirrored field. *)
Theorem C103_slopes_partial : forall S K (extract : S -> K -> R) complete reflect geom face r x0 i h d old,
  let st := ReconstructEmbeddedBoundaryStencil S K extract complete reflect geom face r x0 i h d old in
  let b := position i (boundary_centroid geom i) h in
  let n := (- fst (boundary_normal geom i), - snd (boundary_normal geom i)) in
  forall k t s s',
  let field x := reference_value extract r x0 x k in
  (face d i < face d (next d i) ->
     right_slope _ _ st k * (s' - s) = field (point d s' t) - field (point d s t)
     /\ left_slope _ _ st k * (s' - s) = field (mirror b n (point d s' t)) - field (mirror b n (point d s t)))
  /\ (face d (next d i) < face d i ->
     left_slope _ _ st k * (s' - s) = field (point d s' t) - field (point d s t)
     /\ right_slope _ _ st k * (s' - s) = field (mirror b n (point d s' t)) - field (mirror b n (point d s t))).
Proof.
  intros S K extract complete reflect geom face r x0 i h d old st b n k t s s' field.
  assert (Sh : shift d i 1 = next d i) by (destruct d; reflexivity).
  unfold st, ReconstructEmbeddedBoundaryStencil. cbv zeta. rewrite Sh. destruct r as [[q gx] gy]. unfold field, reference_value.
  assert (N : GetBoundaryNormal geom i = n) by (unfold GetBoundaryNormal, n, vmul; f_equal; ring). rewrite N.
  split; intro L; destruct (Rlt_dec (face d i) (face d (next d i))); try lra;
    [| destruct (Rlt_dec (face d (next d i)) (face d i)); [| contradiction]];
    cbn [left_slope right_slope]; unfold ApplyGradient, vsub, vmul, vdot, mirror, point, unit_vector; destruct d; cbn [fst snd]; split; ring.
Qed.
Print Assumptions C103_slopes_partial.

(** Conservative variables: density, momentum (components 1 and 2), energy; a reflection changes the sign of the normal momentum. *)
Definition gas_reflect (s : nat -> R) (n : vec) : nat -> R :=
  fun k => match k with
           | 1%nat => s 1%nat - 2 * (s 1%nat * fst n + s 2%nat * snd n) * fst n
           | 2%nat => s 2%nat - 2 * (s 1%nat * fst n + s 2%nat * snd n) * snd n
           | _ => s k
           end.

(** A wall at the left, perpendicular to x, through b.  The normal momentum of the gas is m (x - b): it vanishes at the wall, and so does
    the mirrored field, which is the same linear function.  The slope behind the wall should be m, the code has - m.  At the
    wall the stencil then reads the momentum - m h from behind instead of 0. *)
Theorem C103_momentum_refuted : forall (geom : geometry) (face : nat -> index -> R) (i : index) (h : vec) (old : stencil (nat -> R) nat) (m : R),
  boundary_normal geom i = (Ropp 1, 0) -> face 0%nat i < face 0%nat (next 0 i) -> m <> 0 -> 0 < fst h ->
  let b := position i (boundary_centroid geom i) h in
  let r := ((fun k => match k with 1%nat => 0 | 2%nat => 0 | _ => 1 end), (fun k => match k with 1%nat => m | _ => 0 end), (fun _ => 0)) in
  let st := ReconstructEmbeddedBoundaryStencil (nat -> R) nat (fun s => s) (fun s => s) gas_reflect geom face r b i h 0 old in
  let mirrored x := gas_reflect (reference_value (fun s => s) r b (mirror b (1, 0) x)) (1, 0) 1%nat in
  (forall x y, mirrored (x, y) = m * (x - fst b))
  /\ left_state _ _ st 1%nat = mirrored (fst b - fst h / 2, snd b)
  /\ left_slope _ _ st 1%nat = - m
  /\ left_state _ _ st 1%nat + left_slope _ _ st 1%nat * (fst h / 2) = - (m * fst h) /\ - (m * fst h) <> 0
  /\ right_state _ _ st 1%nat - right_slope _ _ st 1%nat * (fst h / 2) = 0.
Proof.
  intros geom face i h old m En L Nm Hh b r st mirrored.
  assert (M : forall x y, mirrored (x, y) = m * (x - fst b)).
  { intros x y. unfold mirrored, gas_reflect, reference_value, r, mirror. cbn [fst snd]. ring. }
  destruct (C103_states (nat -> R) nat (fun s => s) (fun s => s) gas_reflect geom face r b i h 0%nat old) as [H _].
  cbv zeta in H. fold b in H. rewrite En in H. destruct (H L) as [H1 H2]. fold st in H1, H2.
  replace (- fst (- (1), 0), - snd (- (1), 0)) with (1, 0) in H2 by (cbn [fst snd]; f_equal; ring).
  assert (E2 : left_state _ _ st 1%nat = mirrored (fst b - fst h / 2, snd b)).
  { rewrite H2. unfold mirrored. cbn [point coordinate tangential]. do 3 f_equal. unfold mirror. cbn [fst snd]. f_equal; field. }
  assert (E1 : right_state _ _ st 1%nat = m * (fst h / 2)).
  { rewrite H1. unfold reference_value, r, point, coordinate, tangential. cbn [fst snd]. field. }
  assert (S1 : left_slope _ _ st 1%nat = - m /\ right_slope _ _ st 1%nat = m).
  { unfold st, ReconstructEmbeddedBoundaryStencil. cbv zeta. change (shift 0 i 1) with (next 0 i).
    destruct (Rlt_dec (face 0%nat i) (face 0%nat (next 0 i))); [| contradiction]. unfold r. cbn [left_slope right_slope].
    unfold ApplyGradient, GetBoundaryNormal. rewrite En. unfold vsub, vmul, vdot, unit_vector. cbn [fst snd]. split; [ring | reflexivity]. }
  destruct S1 as [S1 S2]. split; [exact M |]. split; [exact E2 |]. split; [exact S1 |]. rewrite E2, S1, S2, E1, M.
  split; [field |]. split; [| field]. intro Z. apply Nm. nra.
Qed.
Print Assumptions C103_momentum_refuted.

(** A cell whose left face is closed. *)
Definition left_wall : geometry := mkGeometry (fun _ => 1 / 2) (fun _ => (1 / 4, 0)) (fun _ => (0, 0)) (fun _ => (Ropp 1, 0)).
Example C103_example : let face := fun (d : nat) (i : index) => if (fst i =? 0)%Z then 0 else 1 in
  boundary_normal left_wall (0, 0)%Z = (Ropp 1, 0) /\ face 0%nat (0, 0)%Z < face 0%nat (next 0 (0, 0)%Z) /\ 2 <> 0 /\ 0 < fst (1, 1).
Proof. cbn. repeat split; lra. Qed.

(** ** C104 *)

(** Linear data: the reference state of a cut cell is the value of the linear function at the centroid of its parts, whatever the
    parts are; the gradient in the x direction is exact. *)
Theorem C104_linear_partial : forall S K (extract : S -> K -> R) complete inside c geom dx a g parts rest old,
  (forall q k, extract (complete q) k = q k) ->
  parts <> [] -> (forall s, In s parts -> 0 < volume_of s) -> (forall s, In s rest -> volume_of s = 0) ->
  (forall s, In s parts -> inside (cell_of s) = true /\ 0 < volume_fraction geom (cell_of s) /\ exact_in S K extract c geom dx a g (cell_of s)) ->
  exists q gx gy, IntegrateCellState S K extract complete inside c geom dx (parts ++ rest) old = (true, (q, gx, gy))
    /\ forall k, extract q k = affine (a k) (g k) (Centroid (parts ++ rest)) /\ gx k = fst (g k).
Proof.
  intros S K extract complete inside c geom dx a g parts rest old EC Ne Pos Zero Ex.
  assert (V : visited (parts ++ rest) = parts) by (apply visited_all; assumption).
  assert (T : total volume_of (parts ++ rest) = total volume_of parts) by (rewrite total_app, (total_zero volume_of rest Zero); ring).
  pose proof (total_positive parts Ne Pos) as TP.
  assert (VP : visited_positive (parts ++ rest) = parts).
  { rewrite visited_positive_visited; [exact V |]. intros s Hs. apply in_app_or in Hs as [Hs | Hs]; [specialize (Pos s Hs); lra | rewrite (Zero s Hs); lra]. }
  unfold IntegrateCellState, IntegrateParts. rewrite V, T. destruct (Req_EM_T (total volume_of parts) 0) as [E | _]; [lra |].
  replace (forallb _ parts) with true.
  2: { symmetry. apply forallb_forall. intros s Hs. destruct (Ex s Hs) as (H1 & H2 & _). rewrite H1. destruct (Rlt_dec _ _); [reflexivity | contradiction]. }
  do 3 eexists. split; [reflexivity |]. intro k. rewrite EC. unfold Centroid. cbv zeta. rewrite VP. set (W := total volume_of parts) in *.
  split.
  - unfold affine. cbn [fst snd].
    rewrite (total_ext _ (fun s => / W * (a k * volume_of s + (fst (g k) * (volume_of s * fst (point_of s)) + snd (g k) * (volume_of s * snd (point_of s)))))).
    2: { intros s Hs. destruct (Ex s Hs) as (_ & _ & H). rewrite (value_exact S K extract c geom dx a g _ _ k H). unfold affine. field. lra. }
    rewrite total_scale.
    assert (L1 : total (fun s => fst (g k) * (volume_of s * fst (point_of s)) + snd (g k) * (volume_of s * snd (point_of s))) parts
                 = fst (g k) * total (fun s => volume_of s * fst (point_of s)) parts + snd (g k) * total (fun s => volume_of s * snd (point_of s)) parts)
      by (apply total_lin; intros; ring).
    assert (L2 : total (fun s => a k * volume_of s + (fst (g k) * (volume_of s * fst (point_of s)) + snd (g k) * (volume_of s * snd (point_of s)))) parts
                 = a k * total volume_of parts + 1 * total (fun s => fst (g k) * (volume_of s * fst (point_of s)) + snd (g k) * (volume_of s * snd (point_of s))) parts)
      by (apply total_lin; intros; ring).
    rewrite L2, L1.
    fold W. field. lra.
  - rewrite (total_ext _ (fun s => fst (g k) / W * volume_of s)).
    2: { intros s Hs. destruct (Ex s Hs) as (_ & _ & H). destruct (H k) as (_ & -> & _). field. lra. }
    rewrite total_scale. fold W. field. lra.
Qed.
Print Assumptions C104_linear_partial.

(** The gradient in the y direction is that of the x direction.  For data which depend only on y the reference state has no
    gradient at all. *)
Theorem C104_gradient_refuted : forall S K (extract : S -> K -> R) complete inside c geom dx (a : K -> R) part old,
  0 < volume_of part -> inside (cell_of part) = true -> 0 < volume_fraction geom (cell_of part) ->
  exact_in S K extract c geom dx a (fun _ => (0, 1)) (cell_of part) ->
  exists q gx gy, IntegrateCellState S K extract complete inside c geom dx [part] old = (true, (q, gx, gy)) /\ forall k, gy k = 0.
Proof.
  intros S K extract complete inside c geom dx a part old Pos In1 Fl Ex.
  unfold IntegrateCellState, IntegrateParts. cbn [total fold_right visited].
  destruct (Req_EM_T (volume_of part + 0) 0) as [E | _]; [lra |]. destruct (Req_EM_T (volume_of part) 0) as [E | _]; [lra |].
  cbn [forallb]. rewrite In1. destruct (Rlt_dec _ _); [| contradiction]. cbn [andb].
  do 3 eexists. split; [reflexivity |]. intro k. cbn [total fold_right]. destruct (Ex k) as (_ & -> & _). cbn [fst]. ring.
Qed.
Print Assumptions C104_gradient_refuted.

(** Each cut cell whose integration succeeds gets its own reference state, whatever was computed before. *)
Theorem C104_stored : forall S K (extract : S -> K -> R) complete inside c geom dx points is scratch refs i ref,
  NoDup is -> In i is ->
  (forall old, IntegrateCellState S K extract complete inside c geom dx (points i) old = (true, ref)) ->
  ComputeBoundaryStates S K extract complete inside c geom dx points is scratch refs i = ref.
Proof.
  intros S K extract complete inside c geom dx points is.
  assert (Keep : forall is scratch refs i, ~ In i is -> ComputeBoundaryStates S K extract complete inside c geom dx points is scratch refs i = refs i).
  { clear is. intro is. induction is as [| j is IH]; intros scratch refs i N; [reflexivity |]. cbn [ComputeBoundaryStates].
    rewrite IH by (intro H; apply N; right; exact H). cbv zeta. destruct (Z.eqb_spec (fst i) (fst j)); destruct (Z.eqb_spec (snd i) (snd j)); try reflexivity.
    exfalso. apply N. left. destruct i, j. cbn [fst snd] in *. congruence. }
  induction is as [| j is IH]; intros scratch refs i ref ND Hi H; [contradiction |].
  inversion ND as [| ? ? Nj ND']; subst. cbn [ComputeBoundaryStates]. cbv zeta.
  destruct Hi as [-> | Hi].
  - rewrite Keep by exact Nj. rewrite !Z.eqb_refl. cbn [andb]. rewrite H. reflexivity.
  - apply IH; assumption.
Qed.
Print Assumptions C104_stored.

(** If the integration fails, because a part lies in a cell outside of the patch or in a solid cell, the failure is ignored and
    the state of the previous cut cell is stored, wherever that cell is. *)
Theorem C104_stale_refuted : forall S K (extract : S -> K -> R) complete inside c geom dx points i j ref gx gy q scratch refs s,
  i <> j -> (forall old, IntegrateCellState S K extract complete inside c geom dx (points i) old = (true, ref)) -> ref = (q, gx, gy) ->
  points j = [s] -> 0 < volume_of s -> inside (cell_of s) = false ->
  ComputeBoundaryStates S K extract complete inside c geom dx points [i; j] scratch refs j = (q, fun _ => 0, fun _ => 0).
Proof.
  intros S K extract complete inside c geom dx points i j ref gx gy q scratch refs s N H -> Ej Pos Out.
  cbn [ComputeBoundaryStates]. cbv zeta. rewrite !Z.eqb_refl. cbn [andb]. rewrite H. cbn [snd]. rewrite Ej.
  unfold IntegrateCellState. cbn [total fold_right visited]. destruct (Req_EM_T (volume_of s + 0) 0) as [E | _]; [lra |].
  destruct (Req_EM_T (volume_of s) 0) as [E | _]; [lra |]. cbn [forallb]. rewrite Out. reflexivity.
Qed.
Print Assumptions C104_stale_refuted.

(** Two parts of a cell and its neighbour; the second cell of the loop asks for a cell outside. *)
Definition two_parts : list source := [(1 / 2, (3 / 4, 1 / 2), (0, 0)%Z); (1 / 4, (9 / 8, 1 / 2), (1, 0)%Z)].
Definition row_cells : cells (unit -> R) unit :=
  mkCells (unit -> R) unit (fun i _ => 1 + 2 * ((IZR (fst i) + 0 + 1 / 2) * 1) + 3 * ((IZR (snd i) + 0 + 1 / 2) * 1)) (fun _ _ => 2) (fun _ _ => 3).
Definition row_geometry : geometry := mkGeometry (fun _ => 1 / 2) (fun _ => (0, 0)) (fun _ => (0, 0)) (fun _ => (0, 0)).
Example C104_example :
  two_parts <> [] /\ (forall s, In s two_parts -> 0 < volume_of s) /\
  (forall s, In s two_parts -> (fun i : index => (0 <=? fst i)%Z) (cell_of s) = true /\ 0 < volume_fraction row_geometry (cell_of s)
     /\ exact_in _ _ (fun s => s) row_cells row_geometry (1, 1) (fun _ => 1) (fun _ => (2, 3)) (cell_of s))
  /\ exact_in _ _ (fun s => s) (mkCells (unit -> R) unit (fun i _ => (IZR (snd i) + 0 + 1 / 2) * 1) (fun _ _ => 0) (fun _ _ => 1)) row_geometry (1, 1) (fun _ => 0) (fun _ => (0, 1)) (0, 0)%Z
  /\ (fun i : index => (0 <=? fst i)%Z) (cell_of (1 / 2, (- (1 / 2), 1 / 2), (-1, 0)%Z)) = false.
Proof.
  split; [discriminate |]. split; [intros s [<- | [<- | []]]; unfold volume_of; cbn [fst]; lra |].
  split.
  - intros s [<- | [<- | []]]; (split; [reflexivity |]); (split; [cbn; lra |]); intro k; unfold affine, position; cbn [states grad_x grad_y row_cells row_geometry volume_centroid fst snd]; repeat split.
  - split; [| reflexivity]. intro k; unfold affine, position; cbn [states grad_x grad_y row_geometry volume_centroid fst snd]; repeat split; ring.
Qed.

(** ** C105 *)

(** The linear function of the cell i along the line through the centroid of the wall *)
Definition cell_line {S K : Type} (extract : S -> K -> R) (c : cells S K) (geom : geometry) (dx : vec) (d : nat) (b : vec) (i : index) (k : K) (t : R) : R :=
  let x := point d t (tangential d b) in let m := position i (volume_centroid geom i) dx in
  extract (states _ _ c i) k + grad_x _ _ c i k * (fst x - fst m) + grad_y _ _ c i k * (snd x - snd m).

(** The wall at b on the left of the face F: the left state is the mean over [F - h, F] of the function which is
    the linear function of the left state of the stencil at the wall up to the wall and that of the cell from the wall to the face;
    the right state is the mean over [F, F + h] of the function which is that of the right state of the stencil at the wall up to b + h,
    and that of the next cell from there.  The slopes are the means of the slopes. *)
Theorem C105_left : forall S K (extract : S -> K -> R) complete c geom face eb i dx d old,
  (forall q k, extract (complete q) k = q k) -> face d i < face d (next d i) ->
  let st := ReconstructSinglyShieldedStencil S K extract complete c geom face eb i dx d old in
  let b := position i (boundary_centroid geom i) dx in
  let h := coordinate d dx in
  let F := (IZR (number d i) + 1) * h in
  let w := coordinate d b in
  forall k,
  (exists v1 v2, integral (fun t => extract (left_state _ _ eb) k + left_slope _ _ eb k * (t - (w - h / 2))) (F - h) w v1
     /\ integral (cell_line extract c geom dx d b i k) w F v2 /\ h * extract (left_state _ _ st) k = v1 + v2)
  /\ (exists v1 v2, integral (fun t => extract (right_state _ _ eb) k + right_slope _ _ eb k * (t - (w + h / 2))) F (w + h) v1
     /\ integral (cell_line extract c geom dx d b (next d i) k) (w + h) (F + h) v2 /\ h * extract (right_state _ _ st) k = v1 + v2)
  /\ h * left_slope _ _ st k = (w - (F - h)) * left_slope _ _ eb k + (F - w) * grad_dir _ _ d c i k
  /\ h * right_slope _ _ st k = (w + h - F) * right_slope _ _ eb k + (F - w) * grad_dir _ _ d c (next d i) k.
Proof.
  intros S K extract complete c geom face eb i dx d old EC L st b h F w k.
  assert (Sh : shift d i 1 = next d i) by (destruct d; reflexivity).
  assert (B : GetAbsoluteBoundaryCentroid geom i dx = b) by (unfold GetAbsoluteBoundaryCentroid, b, position; f_equal; ring).
  assert (W : w = (IZR (number d i) + coordinate d (boundary_centroid geom i) + 1 / 2) * h) by (unfold w, b, h, position, coordinate, number; destruct d; reflexivity).
  assert (CL : forall j, exists m0, forall t, cell_line extract c geom dx d b j k t = m0 + grad_dir S K d c j k * (t - 0)
             /\ forall s, value_at S K extract c geom dx j (vadd b (vmul s (unit_vector d))) k = m0 + grad_dir S K d c j k * (w + s - 0)).
  { intro j. unfold cell_line, value_at, ApplyGradient, vsub, vadd, vmul, point, position, GetAbsoluteVolumeCentroid, unit_vector, grad_dir, tangential, w, coordinate. destruct d; cbn [fst snd].
    - exists (extract (states S K c j) k - grad_x S K c j k * ((IZR (fst j) + fst (volume_centroid geom j) + 1 / 2) * fst dx) + grad_y S K c j k * (snd b - (IZR (snd j) + snd (volume_centroid geom j) + 1 / 2) * snd dx)).
      intro t. split; [ring | intro s; ring].
    - exists (extract (states S K c j) k + grad_x S K c j k * (fst b - (IZR (fst j) + fst (volume_centroid geom j) + 1 / 2) * fst dx) - grad_y S K c j k * ((IZR (snd j) + snd (volume_centroid geom j) + 1 / 2) * snd dx)).
      intro t. split; [ring | intro s; ring]. }
  unfold st, ReconstructSinglyShieldedStencil. cbv zeta. rewrite Sh, B. destruct (Rlt_dec (face d i) (face d (next d i))); [| contradiction].
  cbn [left_state right_state left_slope right_slope]. rewrite !EC. change (at_dir d dx) with h. change (at_dir d (boundary_centroid geom i)) with (coordinate d (boundary_centroid geom i)).
  set (cc := coordinate d (boundary_centroid geom i)) in *.
  destruct (CL i) as (m0 & C0). destruct (CL (next d i)) as (m1 & C1).
  split; [| split; [| split]].
  - do 2 eexists. split; [apply integral_line |]. split.
    + apply (integral_ext (fun t => m0 + grad_dir S K d c i k * (t - 0))); [intro t; symmetry; apply C0 | apply integral_line].
    + rewrite (proj2 (C0 0)). unfold F. rewrite W. field.
  - do 2 eexists. split; [apply integral_line |]. split.
    + apply (integral_ext (fun t => m1 + grad_dir S K d c (next d i) k * (t - 0))); [intro t; symmetry; apply C1 | apply integral_line].
    + rewrite (proj2 (C1 0)). unfold F. rewrite W. field.
  - unfold F. rewrite W. field.
  - unfold F. rewrite W. field.
Qed.
Print Assumptions C105_left.

(** The same with the wall on the right of the face F. *)
Theorem C105_right : forall S K (extract : S -> K -> R) complete c geom face eb i dx d old,
  (forall q k, extract (complete q) k = q k) -> face d (next d i) < face d i ->
  let st := ReconstructSinglyShieldedStencil S K extract complete c geom face eb i dx d old in
  let b := position i (boundary_centroid geom i) dx in
  let h := coordinate d dx in
  let F := IZR (number d i) * h in
  let w := coordinate d b in
  forall k,
  (exists v1 v2, integral (fun t => extract (right_state _ _ eb) k + right_slope _ _ eb k * (t - (w + h / 2))) w (F + h) v1
     /\ integral (cell_line extract c geom dx d b i k) F w v2 /\ h * extract (right_state _ _ st) k = v1 + v2)
  /\ (exists v1 v2, integral (fun t => extract (left_state _ _ eb) k + left_slope _ _ eb k * (t - (w - h / 2))) (w - h) F v1
     /\ integral (cell_line extract c geom dx d b (previous d i) k) (F - h) (w - h) v2 /\ h * extract (left_state _ _ st) k = v1 + v2)
  /\ h * right_slope _ _ st k = (F + h - w) * right_slope _ _ eb k + (w - F) * grad_dir _ _ d c i k
  /\ h * left_slope _ _ st k = (F - (w - h)) * left_slope _ _ eb k + (w - F) * grad_dir _ _ d c (previous d i) k.
Proof.
  intros S K extract complete c geom face eb i dx d old EC L st b h F w k.
  assert (Sh : shift d i 1 = next d i) by (destruct d; reflexivity).
  assert (Sp : shift d i (-1) = previous d i) by (destruct d; reflexivity).
  assert (B : GetAbsoluteBoundaryCentroid geom i dx = b) by (unfold GetAbsoluteBoundaryCentroid, b, position; f_equal; ring).
  assert (W : w = (IZR (number d i) + coordinate d (boundary_centroid geom i) + 1 / 2) * h) by (unfold w, b, h, position, coordinate, number; destruct d; reflexivity).
  assert (CL : forall j, exists m0, forall t, cell_line extract c geom dx d b j k t = m0 + grad_dir S K d c j k * (t - 0)
             /\ forall s, value_at S K extract c geom dx j (vsub b (vmul s (unit_vector d))) k = m0 + grad_dir S K d c j k * (w - s - 0)).
  { intro j. unfold cell_line, value_at, ApplyGradient, vsub, vadd, vmul, point, position, GetAbsoluteVolumeCentroid, unit_vector, grad_dir, tangential, w, coordinate. destruct d; cbn [fst snd].
    - exists (extract (states S K c j) k - grad_x S K c j k * ((IZR (fst j) + fst (volume_centroid geom j) + 1 / 2) * fst dx) + grad_y S K c j k * (snd b - (IZR (snd j) + snd (volume_centroid geom j) + 1 / 2) * snd dx)).
      intro t. split; [ring | intro s; ring].
    - exists (extract (states S K c j) k + grad_x S K c j k * (fst b - (IZR (fst j) + fst (volume_centroid geom j) + 1 / 2) * fst dx) - grad_y S K c j k * ((IZR (snd j) + snd (volume_centroid geom j) + 1 / 2) * snd dx)).
      intro t. split; [ring | intro s; ring]. }
  unfold st, ReconstructSinglyShieldedStencil. cbv zeta. rewrite Sh, Sp, B. destruct (Rlt_dec (face d i) (face d (next d i))); [lra |].
  destruct (Rlt_dec (face d (next d i)) (face d i)); [| contradiction].
  cbn [left_state right_state left_slope right_slope]. rewrite !EC. change (at_dir d dx) with h. change (at_dir d (boundary_centroid geom i)) with (coordinate d (boundary_centroid geom i)).
  set (cc := coordinate d (boundary_centroid geom i)) in *.
  destruct (CL i) as (m0 & C0). destruct (CL (previous d i)) as (m1 & C1).
  split; [| split; [| split]].
  - do 2 eexists. split; [apply integral_line |]. split.
    + apply (integral_ext (fun t => m0 + grad_dir S K d c i k * (t - 0))); [intro t; symmetry; apply C0 | apply integral_line].
    + rewrite (proj2 (C0 0)). unfold F. rewrite W. field.
  - do 2 eexists. split; [apply integral_line |]. split.
    + apply (integral_ext (fun t => m1 + grad_dir S K d c (previous d i) k * (t - 0))); [intro t; symmetry; apply C1 | apply integral_line].
    + rewrite (proj2 (C1 0)). unfold F. rewrite W. field.
  - unfold F. rewrite W. field.
  - unfold F. rewrite W. field.
Qed.
Print Assumptions C105_right.

(** If the stencil at the wall and the cells hold linear data, the shielded stencil holds them at F - h/2 and F + h/2. *)
Theorem C105_linear : forall S K (extract : S -> K -> R) complete c geom face eb i dx d old a g,
  (forall q k, extract (complete q) k = q k) -> face d i < face d (next d i) ->
  exact_in S K extract c geom dx a g i -> exact_in S K extract c geom dx a g (next d i) ->
  let b := position i (boundary_centroid geom i) dx in
  let h := coordinate d dx in
  let line k t := affine (a k) (g k) (point d t (tangential d b)) in
  (forall k, extract (left_state _ _ eb) k = line k (coordinate d b - h / 2) /\ extract (right_state _ _ eb) k = line k (coordinate d b + h / 2)
             /\ left_slope _ _ eb k = coordinate d (g k) /\ right_slope _ _ eb k = coordinate d (g k)) ->
  let st := ReconstructSinglyShieldedStencil S K extract complete c geom face eb i dx d old in
  let F := (IZR (number d i) + 1) * h in
  forall k, extract (left_state _ _ st) k = line k (F - h / 2) /\ extract (right_state _ _ st) k = line k (F + h / 2)
            /\ left_slope _ _ st k = coordinate d (g k) /\ right_slope _ _ st k = coordinate d (g k).
Proof.
  intros S K extract complete c geom face eb i dx d old a g EC L E0 E1 b h line H st F k.
  assert (Sh : shift d i 1 = next d i) by (destruct d; reflexivity).
  assert (B : GetAbsoluteBoundaryCentroid geom i dx = b) by (unfold GetAbsoluteBoundaryCentroid, b, position; f_equal; ring).
  assert (W : coordinate d b = (IZR (number d i) + coordinate d (boundary_centroid geom i) + 1 / 2) * h) by (unfold b, h, position, coordinate, number; destruct d; reflexivity).
  unfold st, ReconstructSinglyShieldedStencil. cbv zeta. rewrite Sh, B. destruct (Rlt_dec (face d i) (face d (next d i))); [| contradiction].
  cbn [left_state right_state left_slope right_slope]. rewrite !EC. change (at_dir d dx) with h. change (at_dir d (boundary_centroid geom i)) with (coordinate d (boundary_centroid geom i)).
  rewrite !(value_exact S K extract c geom dx a g _ _ k E0), !(value_exact S K extract c geom dx a g _ _ k E1),
    (grad_exact S K extract c geom dx a g _ d k E0), (grad_exact S K extract c geom dx a g _ d k E1).
  destruct (H k) as (-> & -> & -> & ->).
  assert (P : forall s, affine (a k) (g k) (vadd b (vmul s (unit_vector d))) = line k (coordinate d b + s)).
  { intro s. unfold line. f_equal. unfold vadd, vmul, unit_vector, point, coordinate, tangential. destruct d; cbn [fst snd]; f_equal; ring. }
  rewrite !P. unfold line. rewrite !affine_line. unfold F. rewrite W. repeat split; field.
Qed.
Print Assumptions C105_linear.

Example C105_example : let face := fun (d : nat) (i : index) => if (fst i =? 0)%Z then 0 else 1 in
  (forall (q : unit -> R) k, (fun s : unit -> R => s) ((fun s : unit -> R => s) q) k = q k) /\ face 0%nat (0, 0)%Z < face 0%nat (next 0 (0, 0)%Z)
  /\ face 0%nat (next 0 (-1, 0)%Z) < face 0%nat (-1, 0)%Z.
Proof. cbn. repeat split; lra. Qed.
