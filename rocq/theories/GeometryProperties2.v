(** Property C52: unions, inversions, rotations, bodies of revolution, half spaces.  A geometry contains the
    points where its value is positive. *)
From Coq Require Import List ZArith Lia Reals Lra Bool.
From Verif Require Import GeometryModel GeometrySpec GeometryProofs GeometryProofs2 GeometryProofs3.
Import ListNotations.
Local Open Scope R_scope.

(** A union contains a point iff some member does; the same holds for the closed sets. *)
Theorem C52_union : forall X (geoms : list (X -> R)) x,
  (0 < Union geoms x <-> exists g, In g geoms /\ 0 < g x) /\ (0 <= Union geoms x <-> exists g, In g geoms /\ 0 <= g x).
Proof.
  intros X geoms x. destruct (union_spec geoms x) as (_ & H2 & H3). pose proof lowest_neg. split; split.
  - intros H1. destruct H3 as [E|(g & I & E)]; [lra|]. exists g. split; [exact I|lra].
  - intros (g & I & P). pose proof (H2 g I). lra.
  - intros H1. destruct H3 as [E|(g & I & E)]; [lra|]. exists g. split; [exact I|lra].
  - intros (g & I & P). pose proof (H2 g I). lra.
Qed.
Print Assumptions C52_union.

(** Outside of all members the value of a union is minus the distance to the union of the sets, if the members'
    values are minus the distances to theirs. *)
Theorem C52_union_distance : forall X (dist : X -> X -> R) (members : list ((X -> R) * (X -> Prop))) x,
  members <> [] -> (forall g S, In (g, S) members -> is_distance dist S x (- g x) /\ lowest <= g x) ->
  is_distance dist (fun q => exists g S, In (g, S) members /\ S q) x (- Union (map fst members) x).
Proof.
  intros X dist members x NE H. destruct (union_spec (map fst members) x) as (H1 & H2 & H3).
  assert (A : exists g S, In (g, S) members /\ Union (map fst members) x = g x).
  { destruct H3 as [E|(g & I & E)].
    - destruct members as [|[g S] r]; [congruence|]. exists g, S. split; [left; reflexivity|].
      pose proof (H g S ltac:(left; reflexivity)) as [_ L]. pose proof (H2 g ltac:(left; reflexivity)). lra.
    - apply in_map_iff in I as ([g' S] & <- & I). exists g', S. split; [exact I|exact E]. }
  destruct A as (g & S & I & E). rewrite E. destruct (H g S I) as [[(q & Q1 & Q2) _] _]. split.
  - exists q. split; [exists g, S; split; assumption|exact Q2].
  - intros z (g' & S' & I' & Z). destruct (H g' S' I') as [[_ M] _]. pose proof (M z Z).
    pose proof (H2 g' ltac:(apply in_map_iff; exists (g', S'); split; [reflexivity|exact I'])). lra.
Qed.
Print Assumptions C52_union_distance.

(** Inversion exchanges interior and exterior and keeps the surface and the distance; the inversion of the union
    of the inversions contains the points which all members contain. *)
Theorem C52_invert : forall X (base : X -> R) (geoms : list (X -> R)) x,
  (0 < Invert base x <-> base x < 0) /\ (Invert base x = 0 <-> base x = 0) /\ Rabs (Invert base x) = Rabs (base x) /\
  (0 < Invert (Union (map Invert geoms)) x <-> forall g, In g geoms -> 0 < g x).
Proof.
  intros X base geoms x. unfold Invert at 1 2 3. split; [split; intros; lra|]. split; [split; intros; lra|]. split; [apply Rabs_Ropp|].
  unfold Invert at 1. destruct (union_spec (map Invert geoms) x) as (_ & H2 & H3). pose proof lowest_neg. split.
  - intros P g I. pose proof (H2 (Invert g) ltac:(apply in_map, I)) as Q. unfold Invert in Q at 1. lra.
  - intros H1. destruct H3 as [E|(g & I & E)]; [lra|]. apply in_map_iff in I as (h & <- & I). specialize (H1 h I).
    unfold Invert in E at 2. lra.
Qed.
Print Assumptions C52_invert.

(** The rotated geometry is the image of the geometry under the counterclockwise rotation, values included; the
    rotation is rigid, so distances to the surface are kept. *)
Theorem C52_rotate : forall base angle o,
  (forall y, RotateAroundPoint base angle o (rotate angle o y) = base y) /\
  (forall x, 0 < RotateAroundPoint base angle o x <-> exists y, 0 < base y /\ x = rotate angle o y) /\
  (forall S x, is_distance distance S (rotate (- angle) o x) (Rabs (base (rotate (- angle) o x))) ->
     is_distance distance (fun q => exists y, S y /\ q = rotate angle o y) x (Rabs (RotateAroundPoint base angle o x))) /\
  (forall x y, distance (rotate angle o x) (rotate angle o y) = distance x y) /\ rotate angle o o = o.
Proof.
  intros base a o. split; [|split; [|split; [|split]]].
  - intros y. rewrite rotate_back, (proj1 (rotate_inverse a o y)). reflexivity.
  - intros x. rewrite rotate_back. split.
    + intros P. exists (rotate (- a) o x). split; [exact P|]. symmetry. apply rotate_inverse.
    + intros (y & P & ->). rewrite (proj1 (rotate_inverse a o y)). exact P.
  - intros S x [(q & Q1 & Q2) M]. rewrite rotate_back. split.
    + exists (rotate a o q). split; [exists q; split; [exact Q1|reflexivity]|]. rewrite <- Q2.
      rewrite <- (proj2 (rotate_inverse a o x)) at 1. apply rotate_isometry.
    + intros z (y & Y & ->). apply Rle_trans with (distance (rotate (- a) o x) y); [apply M, Y|].
      rewrite <- (rotate_isometry a o), (proj2 (rotate_inverse a o x)). lra.
  - intros x y. apply rotate_isometry.
  - destruct o as [o0 o1]. unfold rotate. cbn [fst snd]. f_equal; ring.
Qed.
Print Assumptions C52_rotate.

(** Rotating around an axis gives the body of revolution; if the values of the base are distances to a set in the
    upper half plane, those of the body are the distances to the revolved set. *)
Theorem C52_revolution : forall base x y z,
  (0 < RotateAxis base (x, y, z) <-> revolved (fun q => 0 < base q) (x, y, z)) /\
  (forall S : R * R -> Prop, (forall q, S q -> 0 <= snd q) ->
     is_distance distance S (x, sqrt (y ^ 2 + z ^ 2)) (Rabs (base (x, sqrt (y ^ 2 + z ^ 2)))) ->
     is_distance distance3 (revolved S) (x, y, z) (Rabs (RotateAxis base (x, y, z)))) /\
  (forall a, RotateAxis base (x, cos a * y - sin a * z, sin a * y + cos a * z) = RotateAxis base (x, y, z)).
Proof.
  intros base x y z.
  assert (E : RotateAxis base (x, y, z) = base (x, sqrt (y ^ 2 + z ^ 2))) by (cbn [RotateAxis]; do 3 f_equal; ring).
  split; [|split].
  - rewrite E. cbn [revolved]. reflexivity.
  - intros S P D. rewrite E. apply (revolution_distance S (x, y, z)); assumption.
  - intros a. cbn [RotateAxis]. do 3 f_equal.
    transitivity ((cos a * cos a + sin a * sin a) * (y * y + z * z)); [ring|]. rewrite cos_sin_1. ring.
Qed.
Print Assumptions C52_revolution.

(** A half space is the signed distance to its plane, positive on the side of the given direction. *)
Theorem C52_halfspace : forall dir offset x, dir <> (0, 0, 0) ->
  is_distance distance3 (fun q => dot3 q dir = offset * distance3 dir (0, 0, 0)) x (Rabs (Halfspace dir offset x)) /\
  (0 < Halfspace dir offset x <-> offset * distance3 dir (0, 0, 0) < dot3 x dir).
Proof.
  intros dir offset x H. pose proof (dot3_pos dir H) as P.
  assert (E : distance3 dir (0, 0, 0) = sqrt (dot3 dir dir)) by (destruct dir as [[a0 a1] a2]; unfold distance3, dot3; f_equal; ring).
  rewrite E. split; [apply halfspace_distance, H|]. rewrite (halfspace_value dir offset x H).
  set (l := sqrt (dot3 dir dir)). assert (l0 : 0 < l) by (apply sqrt_lt_R0; exact P). split; intros Q.
  - apply (Rmult_lt_compat_r l) in Q; [|exact l0]. unfold Rdiv in Q. rewrite Rmult_minus_distr_r, Rmult_assoc, Rinv_l in Q by lra. lra.
  - apply Rmult_lt_reg_r with l; [exact l0|]. unfold Rdiv. rewrite Rmult_minus_distr_r, Rmult_assoc, Rinv_l by lra. lra.
Qed.
Print Assumptions C52_halfspace.

(** Two half spaces x > 1 and x < -1: the union at 3 and at 0, where it is minus the distance; a half turn. *)
Example C52_example : let g := Halfspace (1, 0, 0) 1 in let h := Halfspace (-1, 0, 0) 1 in
  Union [g; h] (3, 0, 0) = 2 /\ Union [g; h] (0, 0, 0) = -1 /\ rotate PI (1, 0) (3, 0) = (-1, 0) /\ (1, 0, 0) <> (0, 0, 0).
Proof.
  intros g h.
  assert (G : forall x, g (x, 0, 0) = x - 1).
  { intros x. unfold g. rewrite halfspace_value by (intros Q; injection Q; lra). cbn [dot3].
    replace (1 * 1 + 0 * 0 + 0 * 0) with 1 by ring. rewrite sqrt_1. field. }
  assert (Hh : forall x, h (x, 0, 0) = - x - 1).
  { intros x. unfold h. rewrite halfspace_value by (intros Q; injection Q; lra). cbn [dot3].
    replace (-1 * -1 + 0 * 0 + 0 * 0) with 1 by ring. rewrite sqrt_1. field. }
  pose proof lowest_neg as LN. assert (LL : lowest <= -4).
  { unfold lowest. assert (2 ^ 971 * 2 ^ 53 = 2 ^ 1024) by (rewrite <- pow_add; f_equal).
    assert (1 <= 2 ^ 971) by (apply pow_R1_Rle; lra). assert (2 ^ 53 = 9007199254740992) by (cbn; lra). nra. }
  split; [|split; [|split]].
  - unfold Union. cbn [fold_left]. rewrite G, Hh. unfold Rmax. repeat destruct (Rle_dec _ _); lra.
  - unfold Union. cbn [fold_left]. rewrite G, Hh. unfold Rmax. repeat destruct (Rle_dec _ _); lra.
  - unfold rotate. cbn [fst snd]. rewrite cos_PI, sin_PI. f_equal; lra.
  - intros Q. injection Q. lra.
Qed.
