(** Proofs for C152: signs and distances. *)
From Coq Require Import Reals Bool Lra Lia Psatz.
From Verif Require Import TubeModel TubeSpec TubeProofs TubeProofs2 ConeModel ConeSpec ConeProofs.
Local Open Scope R_scope.

Lemma le_sqrt d e : 0 <= d -> d * d <= e -> d <= sqrt e.
Proof. intros H1 H2. rewrite <- (sqrt_square d H1). now apply sqrt_le_1_alt. Qed.
Lemma sq_pos a : 0 <= a * a.
Proof. nra. Qed.
Lemma sq0 a : a * a = 0 -> a = 0.
Proof. intros H. destruct (Rmult_integral _ _ H); assumption. Qed.

Section cone.
Context (x0 : vec) (R0 H : R).
Hypothesis (HH : 0 < H) (HR : 0 < R0).

Lemma in_cone_top p : in_cone x0 R0 H p -> along x0 p <= H.
Proof. intros [H1 H2]. pose proof (off_pos x0 p). assert (0 <= H * off_axis x0 p) by (apply Rmult_le_pos; lra). nra. Qed.

Lemma cone_sign p : (ConeDistance x0 R0 H true p <= 0 <-> in_cone x0 R0 H p) /\ (in_interior x0 R0 H p -> ConeDistance x0 R0 H true p < 0) /\
  (sqrt epsilon < off_axis x0 p -> ConeDistance x0 R0 H true p < 0 -> in_interior x0 R0 H p).
Proof.
  destruct (cone_eq x0 R0 H true p HH) as (ey & ez & He & Far & ->). rewrite Rmult_1_l.
  pose proof (off_pos x0 p) as Rp. pose proof (off_sq x0 p) as Sq. set (r := off_axis x0 p) in *. set (l := along x0 p).
  assert (NC : forall v, 0 < v -> ~ in_cone x0 R0 H p -> (v <= 0 <-> in_cone x0 R0 H p) /\ (in_interior x0 R0 H p -> v < 0) /\ (sqrt epsilon < r -> v < 0 -> in_interior x0 R0 H p)).
  { intros v Hv N. assert (~ in_interior x0 R0 H p) by (intros [A B]; apply N; split; lra). split; [split; intros Q; [lra|contradiction]|]. split; [intros Q; contradiction|intros _ Q; lra]. }
  destruct (Rlt_dec l 0) as [C1|C1].
  - assert (N : ~ in_cone x0 R0 H p) by (intros [A _]; unfold l in C1; lra).
    destruct (Rlt_dec r R0); [apply NC; [lra|exact N]|]. apply NC; [|exact N]. apply sqrt_lt_R0. assert (0 < l * l) by nra. pose proof (sq_pos r). lra.
  - destruct (Rlt_dec H l) as [C2|C2].
    + apply NC; [|intros Q; apply in_cone_top in Q; unfold l in C2; lra]. apply sqrt_lt_R0. assert (0 < (l - H) * (l - H)) by nra. pose proof (sq_pos r). lra.
    + destruct (face_spec x0 R0 H ey ez p HH HR He) as (F1 & F2 & F3). cbv zeta in *.
      set (w := (vy p - vy x0) * ey + (vz p - vz x0) * ez) in *. set (w' := (vy p - vy x0) * ez - (vz p - vz x0) * ey) in *.
      assert (Ww : w * w + w' * w' = r * r). { rewrite Sq. unfold w, w'. rewrite <- (Rmult_1_r ((vy p - vy x0) * (vy p - vy x0) + (vz p - vz x0) * (vz p - vz x0))), <- He. ring. }
      assert (P : 0 < H * H + R0 * R0) by nra. assert (Sp : 0 < sqrt (H * H + R0 * R0)) by now apply sqrt_lt_R0.
      destruct (Rlt_dec (fst (face x0 R0 H ey ez p)) 0) as [C3|C3].
      * rewrite F1 in C3. change (vx p - vx x0) with l in C3.
        assert (C3' : H * l - R0 * (w - R0) < 0).
        { destruct (Rlt_dec (H * l - R0 * (w - R0)) 0) as [Q|Q]; [exact Q|]. exfalso. assert (0 <= (H * l - R0 * (w - R0)) / sqrt (H * H + R0 * R0)) by (apply Rmult_le_pos; [lra|left; now apply Rinv_0_lt_compat]). lra. }
        assert (wR : R0 < w) by (assert (0 <= H * l) by (apply Rmult_le_pos; lra); assert (0 < R0 * (w - R0)) by lra; nra).
        assert (wr : w <= r) by (pose proof (sq_pos w'); assert (w * w <= r * r) by lra; nra).
        apply NC.
        -- apply sqrt_lt_R0. assert (E : (vy p - vy x0 - R0 * ey) * (vy p - vy x0 - R0 * ey) + (vz p - vz x0 - R0 * ez) * (vz p - vz x0 - R0 * ez) = r * r - 2 * R0 * w + R0 * R0 * (ey * ey + ez * ez)) by (rewrite Sq; unfold w; ring).
           rewrite He in E. pose proof (sq_pos l). assert (0 < (w - R0) * (w - R0)) by nra. pose proof (sq_pos w'). lra.
        -- intros [A B]. fold r in B. fold l in A, B. assert (H * R0 < H * r) by (apply Rmult_lt_compat_l; lra). assert (0 <= R0 * l) by (apply Rmult_le_pos; lra). lra.
      * set (Df := snd (face x0 R0 H ey ez p)) in *. change (vx p - vx x0) with l in F3.
        assert (Dz : Df = 0 -> H * r = R0 * (H - l)).
        { intros Z. rewrite Z in F3. set (A := R0 * l + H * (w - R0)) in *.
          assert (Q1 : 0 <= A * A / (H * H + R0 * R0)) by (apply Rmult_le_pos; [apply sq_pos|left; now apply Rinv_0_lt_compat]).
          pose proof (sq_pos w'). assert (W0 : w' = 0) by (apply sq0; lra). assert (A0 : A * A / (H * H + R0 * R0) = 0) by lra.
          assert (A = 0). { apply sq0. replace (A * A) with (A * A / (H * H + R0 * R0) * (H * H + R0 * R0)) by (field; lra). rewrite A0. ring. }
          unfold A in *. assert (Hw : H * w = R0 * (H - l)) by lra. assert (0 <= R0 * (H - l)) by (apply Rmult_le_pos; lra).
          assert (0 <= w) by nra. assert (w = r). { assert (W2 : w * w = r * r) by (rewrite <- Ww, W0; ring). apply (f_equal sqrt) in W2. rewrite !sqrt_square in W2 by assumption. exact W2. }
          congruence. }
        assert (Dp : H * r <> R0 * (H - l) -> 0 < Df) by (intros Q; destruct (Req_dec Df 0) as [Z|Z]; [exfalso; apply Q; now apply Dz|lra]).
        destruct (Rlt_dec (R0 * (H - l)) (H * r)) as [C4|C4].
        -- apply NC; [apply Dp; lra|]. intros [A B]. fold r in B. fold l in B. lra.
        -- assert (IC : in_cone x0 R0 H p) by (split; fold r; fold l; lra).
           assert (M0 : 0 <= Rmin Df l) by (apply Rmin_glb; lra). split; [split; [intros _; exact IC|intros _; lra]|].
           split.
           ++ intros [A B]. fold r in B. fold l in A, B. assert (0 < Df) by (apply Dp; lra). assert (0 < Rmin Df l) by (apply Rmin_glb_lt; lra). lra.
           ++ intros Fr Q. destruct (Far Fr) as [W1 W2]. fold w in W1. fold w' in W2.
              assert (M : 0 < Rmin Df l) by lra. pose proof (Rmin_l Df l). pose proof (Rmin_r Df l). split; fold r; fold l; [lra|].
              destruct (Req_dec (H * r) (R0 * (H - l))) as [E|E]; [|lra]. exfalso.
              assert (Df = 0); [|lra]. apply sq0. rewrite F3, W2, W1. replace (R0 * l + H * (r - R0)) with 0 by lra. field. lra.
Qed.

(** ** Distances *)
Lemma dist_polar p q : dist p q * dist p q = (along x0 p - along x0 q) * (along x0 p - along x0 q) + (vy p - vy q) * (vy p - vy q) + (vz p - vz q) * (vz p - vz q).
Proof. unfold dist, along. rewrite sqrt_sqrt; [ring|]. pose proof (sq_pos (vx p - vx q)). pose proof (sq_pos (vy p - vy q)). pose proof (sq_pos (vz p - vz q)). lra. Qed.
Lemma dist_pos p q : 0 <= dist p q.
Proof. apply sqrt_pos. Qed.
Lemma abs_le_sq a b : 0 <= b -> a * a <= b * b -> a <= b.
Proof. intros. destruct (Rle_dec a b); [assumption|]. nra. Qed.
(** The distance from the axis changes by at most the radial distance *)
Lemma radial_diff p q : (off_axis x0 p - off_axis x0 q) * (off_axis x0 p - off_axis x0 q) <= (vy p - vy q) * (vy p - vy q) + (vz p - vz q) * (vz p - vz q).
Proof.
  pose proof (off_sq x0 p) as Sp. pose proof (off_sq x0 q) as Sq. pose proof (off_pos x0 p). pose proof (off_pos x0 q). set (r := off_axis x0 p) in *. set (s := off_axis x0 q) in *.
  set (a := vy p - vy x0) in *. set (b := vz p - vz x0) in *. set (c := vy q - vy x0) in *. set (d := vz q - vz x0) in *.
  replace (vy p - vy q) with (a - c) by (unfold a, c; ring). replace (vz p - vz q) with (b - d) by (unfold b, d; ring).
  assert (a * c + b * d <= r * s).
  { apply abs_le_sq; [now apply Rmult_le_pos|]. replace (r * s * (r * s)) with ((r * r) * (s * s)) by ring. rewrite Sp, Sq. pose proof (sq_pos (a * d - b * c)). nra. }
  nra.
Qed.
Lemma dist_ge p q : (along x0 p - along x0 q) * (along x0 p - along x0 q) + (off_axis x0 p - off_axis x0 q) * (off_axis x0 p - off_axis x0 q) <= dist p q * dist p q.
Proof. rewrite dist_polar. pose proof (radial_diff p q). lra. Qed.
(** Moving within the half plane through the axis and p *)
Lemma in_plane p a w : 0 < off_axis x0 p -> 0 <= w -> exists q, along x0 q = a /\ off_axis x0 q = w /\
  dist p q = sqrt ((along x0 p - a) * (along x0 p - a) + (off_axis x0 p - w) * (off_axis x0 p - w)).
Proof.
  intros P W. pose proof (off_sq x0 p) as Sp. set (r := off_axis x0 p) in *.
  exists (mkVec (vx x0 + a) (vy x0 + w * ((vy p - vy x0) / r)) (vz x0 + w * ((vz p - vz x0) / r))).
  assert (U : (vy p - vy x0) / r * ((vy p - vy x0) / r) + (vz p - vz x0) / r * ((vz p - vz x0) / r) = 1).
  { replace ((vy p - vy x0) / r * ((vy p - vy x0) / r) + (vz p - vz x0) / r * ((vz p - vz x0) / r)) with (((vy p - vy x0) * (vy p - vy x0) + (vz p - vz x0) * (vz p - vz x0)) / (r * r)) by (field; lra). rewrite <- Sp. field. lra. }
  assert (E1 : vy p - vy x0 = r * ((vy p - vy x0) / r)) by (field; lra). assert (E2 : vz p - vz x0 = r * ((vz p - vz x0) / r)) by (field; lra).
  set (ey := (vy p - vy x0) / r) in *. set (ez := (vz p - vz x0) / r) in *.
  split; [unfold along; cbn; ring|]. split.
  - unfold off_axis. cbn. transitivity (sqrt (w * w)); [|now apply sqrt_square]. f_equal. transitivity (w * w * (ey * ey + ez * ez)); [ring|]. rewrite U. ring.
  - unfold dist, along. cbn. f_equal. replace (vy p - (vy x0 + w * ey)) with ((r - w) * ey) by (rewrite Rmult_minus_distr_r, <- E1; ring). replace (vz p - (vz x0 + w * ez)) with ((r - w) * ez) by (rewrite Rmult_minus_distr_r, <- E2; ring).
    transitivity ((vx p - (vx x0 + a)) * (vx p - (vx x0 + a)) + (r - w) * (r - w) * (ey * ey + ez * ez)); [ring|]. rewrite U. ring.
Qed.
Lemma cauchy a b : (R0 * a + H * b) * (R0 * a + H * b) <= (H * H + R0 * R0) * (a * a + b * b).
Proof. pose proof (sq_pos (R0 * b - H * a)). nra. Qed.
(** A separation by A in the direction of the normal of the lateral surface *)
Lemma lateral_bound A a b d : 0 <= A -> 0 <= d -> A <= R0 * a + H * b -> a * a + b * b <= d * d -> A / sqrt (H * H + R0 * R0) <= d.
Proof.
  intros HA Hd H1 H2. assert (P : 0 < H * H + R0 * R0) by nra. assert (Sp : 0 < sqrt (H * H + R0 * R0)) by now apply sqrt_lt_R0.
  assert (SS : sqrt (H * H + R0 * R0) * sqrt (H * H + R0 * R0) = H * H + R0 * R0) by (apply sqrt_sqrt; lra). set (s := sqrt (H * H + R0 * R0)) in *.
  apply abs_le_sq; [exact Hd|]. replace (A / s * (A / s)) with (A * A / (s * s)) by (field; lra). rewrite SS.
  apply Rle_trans with (a * a + b * b); [|exact H2]. apply Rmult_le_reg_r with (H * H + R0 * R0); [exact P|].
  replace (A * A / (H * H + R0 * R0) * (H * H + R0 * R0)) with (A * A) by (field; lra). pose proof (cauchy a b). nra.
Qed.
(** The distance to the line of the face, for a radial direction through the point *)
Lemma face_far ey ez p : ey * ey + ez * ez = 1 ->
  (vy p - vy x0) * ey + (vz p - vz x0) * ez = off_axis x0 p /\ (vy p - vy x0) * ez - (vz p - vz x0) * ey = 0 ->
  snd (face x0 R0 H ey ez p) = Rabs (R0 * along x0 p + H * (off_axis x0 p - R0)) / sqrt (H * H + R0 * R0) /\
  fst (face x0 R0 H ey ez p) = (H * along x0 p - R0 * (off_axis x0 p - R0)) / sqrt (H * H + R0 * R0).
Proof.
  intros He [W1 W2]. destruct (face_spec x0 R0 H ey ez p HH HR He) as (F1 & F2 & F3). cbv zeta in *. rewrite W1 in F1, F3. rewrite W2 in F3. change (vx p - vx x0) with (along x0 p) in *.
  split; [|exact F1]. assert (P : 0 < H * H + R0 * R0) by nra. assert (Sp : 0 < sqrt (H * H + R0 * R0)) by now apply sqrt_lt_R0.
  assert (SS : sqrt (H * H + R0 * R0) * sqrt (H * H + R0 * R0) = H * H + R0 * R0) by (apply sqrt_sqrt; lra). set (A := R0 * along x0 p + H * (off_axis x0 p - R0)) in *.
  rewrite <- (sqrt_square _ F2), F3. rewrite <- (sqrt_square (Rabs A / sqrt (H * H + R0 * R0))).
  - f_equal. set (s := sqrt (H * H + R0 * R0)) in *. replace (Rabs A / s * (Rabs A / s)) with (Rabs A * Rabs A / (s * s)) by (field; lra). rewrite SS.
    replace (Rabs A * Rabs A) with (A * A) by (unfold Rabs; destruct (Rcase_abs A); ring). ring.
  - apply Rmult_le_pos; [apply Rabs_pos|left; now apply Rinv_0_lt_compat].
Qed.
End cone.
