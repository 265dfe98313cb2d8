(** C152: the signed distance to a cone. *)
From Coq Require Import Reals Bool Lra Lia Psatz.
From Verif Require Import TubeModel ConeModel ConeSpec ConeProofs ConeProofs2 ConeProofs3.
Local Open Scope R_scope.

(** The value is not positive exactly on the solid cone and negative in its interior. Away from the axis it is negative only there. *)
Theorem C152_sign : forall (b : vec) (R0 H : R) (p : vec), 0 < H -> 0 < R0 ->
  (ConeDistance b R0 H true p <= 0 <-> in_cone b R0 H p) /\ (in_interior b R0 H p -> ConeDistance b R0 H true p < 0) /\
  (sqrt epsilon < off_axis b p -> ConeDistance b R0 H true p < 0 -> in_interior b R0 H p).
Proof. intros. now apply cone_sign. Qed.
Print Assumptions C152_sign.

(** With the other choice of the side the sign changes and nothing else. *)
Theorem C152_side : forall (b : vec) (R0 H : R) (p : vec), ConeDistance b R0 H false p = - ConeDistance b R0 H true p.
Proof. intros. unfold ConeDistance. cbv zeta. repeat destruct (Rlt_dec _ _); ring. Qed.
Print Assumptions C152_side.

(** Full claim: in the cone the absolute value is the distance to the boundary, outside of it the value is the distance to the cone.
    In the cone it is, except very close to the axis, where another direction is used. *)
Theorem C152_depth_partial : forall (b : vec) (R0 H : R) (p : vec), 0 < H -> 0 < R0 -> in_cone b R0 H p -> sqrt epsilon < off_axis b p ->
  distance_to (fun q => ~ in_interior b R0 H q) p (- ConeDistance b R0 H true p).
Proof. intros. now apply cone_inside_distance. Qed.
Print Assumptions C152_depth_partial.

(** Outside it is below the base, beyond the apex in the normal cone of the apex, and beside the cone where the foot of the perpendicular lies on the face. *)
Theorem C152_distance_partial : forall (b : vec) (R0 H : R) (p : vec), 0 < H -> 0 < R0 -> ~ in_cone b R0 H p ->
  (along b p < 0 /\ off_axis b p < R0) \/
  (H < along b p /\ R0 * off_axis b p <= H * (along b p - H)) \/
  (0 <= along b p <= H /\ R0 * (off_axis b p - R0) <= H * along b p /\ sqrt epsilon < off_axis b p) ->
  distance_to (in_cone b R0 H) p (ConeDistance b R0 H true p).
Proof.
  intros b R0 H p HH HR N [[A B]|[[A B]|(A & B & C)]]; [now apply cone_below|now apply cone_apex|now apply cone_outside_distance].
Qed.
Print Assumptions C152_distance_partial.

(** In all other regions away from the axis the value is too large: some point of the cone is closer. *)
Theorem C152_distance_refuted : forall (b : vec) (R0 H : R) (p : vec), 0 < H -> 0 < R0 ->
  (along b p < 0 /\ R0 <= off_axis b p) \/
  (H < along b p /\ H * (along b p - H) < R0 * off_axis b p) \/
  (0 < along b p <= H /\ H * along b p < R0 * (off_axis b p - R0) /\ sqrt epsilon < off_axis b p) ->
  exists q, in_cone b R0 H q /\ dist p q < ConeDistance b R0 H true p.
Proof.
  intros b R0 H p HH HR [[A B]|[[A B]|(A & B & C)]]; [now apply below_too_large|now apply beyond_too_large|now apply beside_too_large].
Qed.
Print Assumptions C152_distance_refuted.

Lemma eps_small : sqrt epsilon < 1.
Proof.
  assert (P : 1 < 2 ^ 52) by (apply Rlt_pow_R1; [lra|lia]). assert (E : epsilon < 1).
  { unfold epsilon. set (a := 2 ^ 52) in *. clearbody a. apply Rmult_lt_reg_l with a; [lra|]. rewrite Rinv_r by lra. lra. }
  assert (0 < epsilon) by (unfold epsilon; apply Rinv_0_lt_compat; lra).
  rewrite <- sqrt_1. apply sqrt_lt_1_alt. lra.
Qed.
Lemma off_y y x z0 : 0 <= y -> off_axis (mkVec 0 0 z0) (mkVec x y z0) = y.
Proof. intros. unfold off_axis. cbn. replace ((y - 0) * (y - 0) + (z0 - z0) * (z0 - z0)) with (y * y) by ring. now apply sqrt_square. Qed.
(** Radius 4, height 3: (1, 2, 0) is inside, (2, 3, 0) is outside of the lateral surface by 1;
    for (-3, 8, 0) the value is sqrt 73 instead of 5. *)
Example C152_example :
  let b := mkVec 0 0 0 in
  in_interior b 4 3 (mkVec 1 2 0) /\ ConeDistance b 4 3 true (mkVec 1 2 0) < 0 /\
  ~ in_cone b 4 3 (mkVec 2 3 0) /\ distance_to (in_cone b 4 3) (mkVec 2 3 0) (ConeDistance b 4 3 true (mkVec 2 3 0)) /\
  (exists q, in_cone b 4 3 q /\ dist (mkVec (-3) 8 0) q < ConeDistance b 4 3 true (mkVec (-3) 8 0)).
Proof.
  cbv zeta. pose proof eps_small as Es. pose proof (off_y 2 1 0 ltac:(lra)) as O1. pose proof (off_y 3 2 0 ltac:(lra)) as O2. pose proof (off_y 8 (-3) 0 ltac:(lra)) as O3.
  assert (A1 : along (mkVec 0 0 0) (mkVec 1 2 0) = 1) by (unfold along; cbn; ring). assert (A2 : along (mkVec 0 0 0) (mkVec 2 3 0) = 2) by (unfold along; cbn; ring). assert (A3 : along (mkVec 0 0 0) (mkVec (-3) 8 0) = -3) by (unfold along; cbn; ring).
  assert (I : in_interior (mkVec 0 0 0) 4 3 (mkVec 1 2 0)) by (unfold in_interior; rewrite O1, A1; lra).
  assert (N : ~ in_cone (mkVec 0 0 0) 4 3 (mkVec 2 3 0)) by (unfold in_cone; rewrite O2, A2; lra).
  split; [exact I|]. split; [apply C152_sign; [lra|lra|exact I]|]. split; [exact N|]. split.
  - apply C152_distance_partial; [lra|lra|exact N|]. right. right. rewrite O2, A2. lra.
  - apply C152_distance_refuted; [lra|lra|]. left. rewrite O3, A3. lra.
Qed.
