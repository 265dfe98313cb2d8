(** Lemmas about unions, rotations, bodies of revolution and half spaces. *)
From Coq Require Import List ZArith Lia Reals Lra Bool.
From Verif Require Import GeometryModel GeometrySpec GeometryProofs GeometryProofs2.
Import ListNotations.
Local Open Scope R_scope.

Lemma lowest_neg : lowest < 0.
Proof.
  unfold lowest. assert (2 ^ 971 < 2 ^ 1024); [|lra]. apply Rlt_pow; [lra|]. apply Nat.ltb_lt. vm_compute. reflexivity.
Qed.

Lemma fold_max {X} (x : X) geoms m0 : let u := fold_left (fun max geom => Rmax max (geom x)) geoms m0 in
  m0 <= u /\ (forall g, In g geoms -> g x <= u) /\ (u = m0 \/ exists g, In g geoms /\ u = g x).
Proof.
  revert m0. induction geoms as [|g geoms IH]; intros m0; cbn [fold_left].
  - split; [lra|]. split; [intros g []|]. left. reflexivity.
  - destruct (IH (Rmax m0 (g x))) as (H1 & H2 & H3). pose proof (Rmax_l m0 (g x)). pose proof (Rmax_r m0 (g x)).
    split; [lra|]. split.
    + intros h [<- |H4]; [lra|apply H2, H4].
    + destruct H3 as [E|(h & I & E)]; [|right; exists h; split; [right; exact I|exact E]].
      rewrite E. unfold Rmax. destruct (Rle_dec m0 (g x)); [right; exists g; split; [left; reflexivity|reflexivity]|left; reflexivity].
Qed.

Lemma union_spec {X} geoms (x : X) : lowest <= Union geoms x /\ (forall g, In g geoms -> g x <= Union geoms x) /\
  (Union geoms x = lowest \/ exists g, In g geoms /\ Union geoms x = g x).
Proof. apply (fold_max x geoms lowest). Qed.

(** ** Rotations *)
Lemma rotate_back base a o x : RotateAroundPoint base a o x = base (rotate (- a) o x).
Proof. unfold RotateAroundPoint, rotate. cbn [fst snd]. f_equal. f_equal; ring. Qed.

Lemma cos_sin_1 a : cos a * cos a + sin a * sin a = 1.
Proof. pose proof (sin2_cos2 a) as H. unfold Rsqr in H. lra. Qed.

Lemma rotate_add a b o x : rotate a o (rotate b o x) = rotate (a + b) o x.
Proof.
  destruct o as [o0 o1], x as [x0 x1]. unfold rotate. cbn [fst snd]. rewrite cos_plus, sin_plus. f_equal; ring.
Qed.

Lemma rotate_0 o x : rotate 0 o x = x.
Proof. destruct o as [o0 o1], x as [x0 x1]. unfold rotate. cbn [fst snd]. rewrite cos_0, sin_0. f_equal; ring. Qed.

Lemma rotate_inverse a o x : rotate (- a) o (rotate a o x) = x /\ rotate a o (rotate (- a) o x) = x.
Proof. rewrite !rotate_add. replace (- a + a) with 0 by ring. replace (a + - a) with 0 by ring. rewrite !rotate_0. auto. Qed.

Lemma rotate_isometry a o x y : distance (rotate a o x) (rotate a o y) = distance x y.
Proof.
  destruct o as [o0 o1], x as [x0 x1], y as [y0 y1]. unfold rotate, distance. cbn [fst snd]. f_equal.
  transitivity ((cos a * cos a + sin a * sin a) * ((x0 - y0) ^ 2 + (x1 - y1) ^ 2)); [ring|]. rewrite cos_sin_1. ring.
Qed.

(** ** Bodies of revolution *)
Lemma radius_triangle y z y' z' : (sqrt (y ^ 2 + z ^ 2) - sqrt (y' ^ 2 + z' ^ 2)) ^ 2 <= (y - y') ^ 2 + (z - z') ^ 2.
Proof.
  set (a := sqrt (y ^ 2 + z ^ 2)). set (b := sqrt (y' ^ 2 + z' ^ 2)).
  assert (A : a * a = y ^ 2 + z ^ 2) by (apply sqrt_def; nra).
  assert (B : b * b = y' ^ 2 + z' ^ 2) by (apply sqrt_def; nra).
  assert (a0 : 0 <= a) by apply sqrt_pos. assert (b0 : 0 <= b) by apply sqrt_pos.
  assert (C : y * y' + z * z' <= a * b).
  { destruct (Rle_dec (y * y' + z * z') 0) as [N|N]; [pose proof (Rmult_le_pos a b a0 b0); lra|].
    apply Rnot_lt_le. intros Q. assert ((a * b) * (a * b) < (y * y' + z * z') * (y * y' + z * z')).
    { apply Rmult_le_0_lt_compat; try lra; apply Rmult_le_pos; assumption. }
    assert (E : (a * b) * (a * b) = (y ^ 2 + z ^ 2) * (y' ^ 2 + z' ^ 2)) by (rewrite <- A, <- B; ring).
    assert (0 <= (y * z' - z * y') * (y * z' - z * y')) by apply Rle_0_sqr. nra. }
  nra.
Qed.

Lemma sqrt_scale c r : 0 <= r -> sqrt ((c * r) ^ 2) = Rabs c * r.
Proof. intros H. replace ((c * r) ^ 2) with (Rsqr (c * r)) by (unfold Rsqr; ring). rewrite sqrt_Rsqr_abs, Rabs_mult, (Rabs_pos_eq r H). reflexivity. Qed.

Lemma revolution_distance (S : R * R -> Prop) p d : (forall q, S q -> 0 <= snd q) ->
  is_distance distance S (let '(x, y, z) := p in (x, sqrt (y ^ 2 + z ^ 2))) d -> is_distance distance3 (revolved S) p d.
Proof.
  destruct p as [[x y] z]. intros P [([qx qr] & Q1 & Q2) M]. set (r := sqrt (y ^ 2 + z ^ 2)) in *.
  assert (R2 : r * r = y ^ 2 + z ^ 2) by (apply sqrt_def; nra). assert (r0 : 0 <= r) by apply sqrt_pos.
  pose proof (P _ Q1) as q0. cbn [snd] in q0. split.
  - (* the point of the body at the same angle *)
    destruct (Req_dec r 0) as [E|E].
    + assert (y = 0 /\ z = 0) as [-> ->] by (rewrite E in R2; split; nra).
      exists (qx, qr, 0). split.
      * cbn [revolved]. replace (sqrt (qr ^ 2 + 0 ^ 2)) with qr; [exact Q1|].
        transitivity (sqrt (qr * qr)); [symmetry; apply sqrt_square, q0|f_equal; ring].
      * rewrite <- Q2. unfold distance3, distance. cbn [fst snd]. rewrite E. f_equal. ring.
    + exists (qx, y / r * qr, z / r * qr). assert (K : (y / r * qr) ^ 2 + (z / r * qr) ^ 2 = qr * qr).
      { transitivity ((y ^ 2 + z ^ 2) / (r * r) * (qr * qr)); [field; exact E|]. rewrite <- R2. field. exact E. }
      split.
      * cbn [revolved]. rewrite K, sqrt_square by exact q0. exact Q1.
      * rewrite <- Q2. unfold distance3, distance. cbn [fst snd]. f_equal.
        replace ((y - y / r * qr) ^ 2) with ((y / r) ^ 2 * (r - qr) ^ 2) by (field; exact E).
        replace ((z - z / r * qr) ^ 2) with ((z / r) ^ 2 * (r - qr) ^ 2) by (field; exact E).
        assert (K1 : (y / r) ^ 2 + (z / r) ^ 2 = 1)
          by (transitivity ((y ^ 2 + z ^ 2) / (r * r)); [field; exact E|]; rewrite <- R2; field; exact E).
        transitivity ((x - qx) ^ 2 + ((y / r) ^ 2 + (z / r) ^ 2) * (r - qr) ^ 2); [ring|]. rewrite K1. ring.
  - intros [[ux uy] uz] U. cbn [revolved] in U. apply Rle_trans with (distance (x, r) (ux, sqrt (uy ^ 2 + uz ^ 2))); [apply M, U|].
    unfold distance, distance3. cbn [fst snd]. apply sqrt_le_1_alt. pose proof (radius_triangle y z uy uz). fold r in H. lra.
Qed.

(** ** Half spaces *)
Lemma dot3_pos a : a <> (0, 0, 0) -> 0 < dot3 a a.
Proof.
  destruct a as [[a0 a1] a2]. intros H. cbn [dot3]. destruct (Req_dec a0 0) as [-> |]; [|nra].
  destruct (Req_dec a1 0) as [-> |]; [|nra]. destruct (Req_dec a2 0) as [-> |]; [congruence|nra].
Qed.

Lemma halfspace_value dir offset x : dir <> (0, 0, 0) ->
  Halfspace dir offset x = dot3 x dir / sqrt (dot3 dir dir) - offset.
Proof.
  intros H. pose proof (dot3_pos dir H) as P. unfold Halfspace, normalized. destruct dir as [[a0 a1] a2].
  destruct (Rlt_dec 0 (dot3 (a0, a1, a2) (a0, a1, a2))); [|contradiction].
  set (l := sqrt _). assert (0 < l) by (apply sqrt_lt_R0; exact P). destruct x as [[x0 x1] x2]. cbn [dot3]. field. lra.
Qed.

Lemma halfspace_distance dir offset x : dir <> (0, 0, 0) ->
  is_distance distance3 (fun q => dot3 q dir = offset * sqrt (dot3 dir dir)) x (Rabs (Halfspace dir offset x)).
Proof.
  intros H. rewrite (halfspace_value dir offset x H). pose proof (dot3_pos dir H) as P.
  set (l := sqrt (dot3 dir dir)). assert (l0 : 0 < l) by (apply sqrt_lt_R0; exact P).
  assert (L : l * l = dot3 dir dir) by (apply sqrt_def; lra). set (v := dot3 x dir / l - offset).
  assert (V : v * l = dot3 x dir - offset * l) by (unfold v; field; lra). clearbody v l.
  destruct dir as [[a0 a1] a2], x as [[x0 x1] x2]. cbn [dot3] in *. split.
  - exists (x0 - v * (a0 / l), x1 - v * (a1 / l), x2 - v * (a2 / l)). split.
    + cbn [dot3]. transitivity (x0 * a0 + x1 * a1 + x2 * a2 - v * (a0 * a0 + a1 * a1 + a2 * a2) / l); [field; lra|].
      rewrite <- L. replace (v * (l * l) / l) with (v * l) by (field; lra). rewrite V. ring.
    + unfold distance3.
      replace ((x0 - (x0 - v * (a0 / l))) ^ 2 + (x1 - (x1 - v * (a1 / l))) ^ 2 + (x2 - (x2 - v * (a2 / l))) ^ 2)
        with (v ^ 2 * ((a0 * a0 + a1 * a1 + a2 * a2) / (l * l))) by (field; lra).
      rewrite <- L. replace (v ^ 2 * (l * l / (l * l))) with (Rsqr v) by (unfold Rsqr; field; lra). apply sqrt_Rsqr_abs.
  - intros [[q0 q1] q2] Q. cbn [dot3] in Q. unfold distance3.
    assert (E : v * l = (x0 - q0) * a0 + (x1 - q1) * a1 + (x2 - q2) * a2).
    { rewrite V, <- Q. ring. }
    rewrite <- (sqrt_Rsqr_abs v). apply sqrt_le_1_alt. unfold Rsqr.
    apply Rmult_le_reg_r with (l * l); [apply Rmult_lt_0_compat; assumption|].
    replace (v * v * (l * l)) with ((v * l) * (v * l)) by ring. rewrite E, L.
    set (b0 := x0 - q0). set (b1 := x1 - q1). set (b2 := x2 - q2).
    assert (0 <= (b0 * a1 - b1 * a0) ^ 2 + (b0 * a2 - b2 * a0) ^ 2 + (b1 * a2 - b2 * a1) ^ 2)
      by (pose proof (pow2_ge_0 (b0 * a1 - b1 * a0)); pose proof (pow2_ge_0 (b0 * a2 - b2 * a0)); pose proof (pow2_ge_0 (b1 * a2 - b2 * a1)); lra).
    nra.
Qed.
