(** Proofs for C152: the distances are exact in some regions and too large in others. *)
From Coq Require Import Reals Bool Lra Lia Psatz.
From Verif Require Import TubeModel TubeSpec TubeProofs TubeProofs2 ConeModel ConeSpec ConeProofs ConeProofs2.
Local Open Scope R_scope.

Lemma div_neg_iff a s : 0 < s -> (a / s < 0 <-> a < 0).
Proof.
  intros Hs. split; intros Q.
  - destruct (Rlt_dec a 0) as [C|C]; [exact C|]. assert (0 <= a / s) by (apply Rmult_le_pos; [lra|left; now apply Rinv_0_lt_compat]). lra.
  - assert (0 < (- a) / s) by (apply Rdiv_lt_0_compat; lra). replace (a / s) with (- (- a / s)) by (field; lra). lra.
Qed.

Section cone.
Context (x0 : vec) (R0 H : R).
Hypothesis (HH : 0 < H) (HR : 0 < R0).
Let S := sqrt (H * H + R0 * R0).
Lemma S_pos : 0 < S.
Proof. apply sqrt_lt_R0. nra. Qed.
Lemma S_sq : S * S = H * H + R0 * R0.
Proof. apply sqrt_sqrt. nra. Qed.

(** The value away from the axis, in terms of the two cylindrical coordinates only *)
Lemma cone_far inside p : sqrt epsilon < off_axis x0 p -> 0 <= along x0 p <= H -> R0 * (off_axis x0 p - R0) <= H * along x0 p ->
  ConeDistance x0 R0 H inside p = (if inside then 1 else -1) *
   (if Rlt_dec (R0 * (H - along x0 p)) (H * off_axis x0 p) then (H * off_axis x0 p - R0 * (H - along x0 p)) / S else - Rmin ((R0 * (H - along x0 p) - H * off_axis x0 p) / S) (along x0 p)).
Proof.
  intros Fr Ll Pr. destruct (cone_eq x0 R0 H inside p HH) as (ey & ez & He & Far & ->). f_equal.
  destruct (Rlt_dec (along x0 p) 0); [lra|]. destruct (Rlt_dec H (along x0 p)); [lra|].
  destruct (face_far x0 R0 H HH HR ey ez p He (Far Fr)) as [E1 E2]. rewrite E1, E2. fold S. pose proof S_pos as Sp.
  destruct (Rlt_dec ((H * along x0 p - R0 * (off_axis x0 p - R0)) / S) 0) as [C|C]; [apply div_neg_iff in C; [lra|exact Sp]|].
  destruct (Rlt_dec (R0 * (H - along x0 p)) (H * off_axis x0 p)) as [D|D].
  - rewrite Rabs_right by lra. f_equal. ring.
  - rewrite Rabs_left1 by lra. f_equal. f_equal. f_equal. ring.
Qed.

Lemma cone_inside_distance p : sqrt epsilon < off_axis x0 p -> in_cone x0 R0 H p ->
  distance_to (fun q => ~ in_interior x0 R0 H q) p (- ConeDistance x0 R0 H true p).
Proof.
  intros Fr IC. pose proof (in_cone_top x0 R0 H HH HR p IC) as Top. destruct IC as [L0 B]. pose proof (off_pos x0 p) as Rp. pose proof (sqrt_pos epsilon) as Ep.
  rewrite cone_far; [|exact Fr|lra|].
  2:{ assert (off_axis x0 p <= R0). { apply Rmult_le_reg_l with H; [exact HH|]. assert (0 <= R0 * along x0 p) by (apply Rmult_le_pos; lra). lra. } assert (0 <= H * along x0 p) by (apply Rmult_le_pos; lra). nra. }
  destruct (Rlt_dec (R0 * (H - along x0 p)) (H * off_axis x0 p)) as [D|D]; [lra|].
  set (l := along x0 p) in *. set (r := off_axis x0 p) in *. set (A := R0 * (H - l) - H * r). replace (- (1 * - Rmin (A / S) l)) with (Rmin (A / S) l) by ring.
  pose proof S_pos as Sp. pose proof S_sq as SS.
  assert (A0 : 0 <= A / S) by (apply Rmult_le_pos; [unfold A; lra|left; now apply Rinv_0_lt_compat]).
  split.
  - intros q NI. pose proof (dist_pos p q) as Dp. pose proof (dist_ge x0 p q) as Dg. fold l r in Dg.
    pose proof (Rmin_l (A / S) l). pose proof (Rmin_r (A / S) l).
    destruct (Rle_dec (along x0 q) 0) as [C|C].
    + apply Rle_trans with l; [lra|]. apply abs_le_sq; [exact Dp|]. pose proof (sq_pos (r - off_axis x0 q)). nra.
    + assert (NB : R0 * (H - along x0 q) <= H * off_axis x0 q). { destruct (Rle_dec (R0 * (H - along x0 q)) (H * off_axis x0 q)); [assumption|]. exfalso. apply NI. split; lra. }
      apply Rle_trans with (A / S); [lra|]. apply (lateral_bound R0 H HR A (along x0 q - l) (off_axis x0 q - r)); [unfold A; lra|exact Dp|unfold A; lra|]. lra.
  - destruct (Rle_dec (A / S) l) as [C|C].
    + rewrite Rmin_left by exact C.
      destruct (in_plane x0 p (l + A * R0 / (S * S)) (r + A * H / (S * S))) as (q & E1 & E2 & E3).
      * fold r. lra.
      * assert (0 <= A * H / (S * S)); [|lra]. apply Rmult_le_pos; [apply Rmult_le_pos; unfold A; lra|left; apply Rinv_0_lt_compat; nra].
      * exists q. split.
        -- intros [_ B']. rewrite E1, E2 in B'. assert (E : H * (r + A * H / (S * S)) - R0 * (H - (l + A * R0 / (S * S))) = 0); [|lra].
           replace (H * (r + A * H / (S * S)) - R0 * (H - (l + A * R0 / (S * S)))) with (A * (H * H + R0 * R0) / (S * S) - A) by (unfold A; field; lra). rewrite SS. field. nra.
        -- rewrite E3. fold l r. rewrite <- (sqrt_square (A / S) A0). f_equal.
           replace ((l - (l + A * R0 / (S * S))) * (l - (l + A * R0 / (S * S))) + (r - (r + A * H / (S * S))) * (r - (r + A * H / (S * S)))) with (A * A * (H * H + R0 * R0) / (S * S * (S * S))) by (field; lra).
           rewrite <- SS. field. lra.
    + rewrite Rmin_right by lra. destruct (in_plane x0 p 0 r) as (q & E1 & E2 & E3); [fold r; lra|exact Rp|].
      exists q. split; [intros [Z _]; lra|]. rewrite E3. fold l r. rewrite <- (sqrt_square l L0) at 3. f_equal. ring.
Qed.

Lemma cone_outside_distance p : sqrt epsilon < off_axis x0 p -> 0 <= along x0 p <= H -> R0 * (off_axis x0 p - R0) <= H * along x0 p -> ~ in_cone x0 R0 H p ->
  distance_to (in_cone x0 R0 H) p (ConeDistance x0 R0 H true p).
Proof.
  intros Fr Ll Pr NC. pose proof (sqrt_pos epsilon) as Ep. pose proof (off_pos x0 p) as Rp.
  rewrite (cone_far true p Fr Ll Pr).
  destruct (Rlt_dec (R0 * (H - along x0 p)) (H * off_axis x0 p)) as [D|D]; [|exfalso; apply NC; split; lra]. rewrite Rmult_1_l.
  set (l := along x0 p) in *. set (r := off_axis x0 p) in *. set (A := H * r - R0 * (H - l)).
  pose proof S_pos as Sp. pose proof S_sq as SS.
  assert (A0 : 0 <= A / S) by (apply Rmult_le_pos; [unfold A; lra|left; now apply Rinv_0_lt_compat]).
  split.
  - intros q [Q1 Q2]. pose proof (dist_pos p q) as Dp. pose proof (dist_ge x0 p q) as Dg. fold l r in Dg.
    apply (lateral_bound R0 H HR A (l - along x0 q) (r - off_axis x0 q)); [unfold A; lra|exact Dp|unfold A; lra|lra].
  - assert (P2 : 0 < S * S) by nra.
    assert (W : r - A * H / (S * S) = R0 * (R0 * r + H * (H - l)) / (S * S)). { apply Rmult_eq_reg_r with (S * S); [|lra]. replace ((r - A * H / (S * S)) * (S * S)) with (r * (S * S) - A * H) by (field; lra). replace (R0 * (R0 * r + H * (H - l)) / (S * S) * (S * S)) with (R0 * (R0 * r + H * (H - l))) by (field; lra). rewrite SS. unfold A. ring. }
    assert (L : l - A * R0 / (S * S) = H * (H * l - R0 * (r - R0)) / (S * S)). { apply Rmult_eq_reg_r with (S * S); [|lra]. replace ((l - A * R0 / (S * S)) * (S * S)) with (l * (S * S) - A * R0) by (field; lra). replace (H * (H * l - R0 * (r - R0)) / (S * S) * (S * S)) with (H * (H * l - R0 * (r - R0))) by (field; lra). rewrite SS. unfold A. ring. }
    destruct (in_plane x0 p (l - A * R0 / (S * S)) (r - A * H / (S * S))) as (q & E1 & E2 & E3).
    + fold r. lra.
    + rewrite W. apply Rmult_le_pos; [|left; now apply Rinv_0_lt_compat]. apply Rmult_le_pos; [lra|]. apply Rplus_le_le_0_compat; apply Rmult_le_pos; lra.
    + exists q. split.
      * split.
        -- rewrite E1, L. apply Rmult_le_pos; [|left; now apply Rinv_0_lt_compat]. apply Rmult_le_pos; lra.
        -- rewrite E1, E2. right. assert (E : H * (r - A * H / (S * S)) - R0 * (H - (l - A * R0 / (S * S))) = 0); [|lra].
           replace (H * (r - A * H / (S * S)) - R0 * (H - (l - A * R0 / (S * S)))) with (A - A * (H * H + R0 * R0) / (S * S)) by (unfold A; field; lra). rewrite SS. field. nra.
      * rewrite E3. fold l r. rewrite <- (sqrt_square (A / S) A0). f_equal.
        replace ((l - (l - A * R0 / (S * S))) * (l - (l - A * R0 / (S * S))) + (r - (r - A * H / (S * S))) * (r - (r - A * H / (S * S)))) with (A * A * (H * H + R0 * R0) / (S * S * (S * S))) by (field; lra).
        rewrite <- SS. field. lra.
Qed.

Lemma cone_below p : along x0 p < 0 -> off_axis x0 p < R0 -> distance_to (in_cone x0 R0 H) p (ConeDistance x0 R0 H true p).
Proof.
  intros L B. destruct (cone_eq x0 R0 H true p HH) as (ey & ez & _ & _ & ->). rewrite Rmult_1_l.
  destruct (Rlt_dec (along x0 p) 0); [|lra]. destruct (Rlt_dec (off_axis x0 p) R0); [|lra]. split.
  - intros q [Q _]. apply abs_le_sq; [apply dist_pos|]. pose proof (dist_ge x0 p q). pose proof (sq_pos (off_axis x0 p - off_axis x0 q)). nra.
  - exists (mkVec (vx x0) (vy p) (vz p)). split.
    + split; [unfold along; cbn; lra|]. replace (off_axis x0 (mkVec (vx x0) (vy p) (vz p))) with (off_axis x0 p) by reflexivity.
      replace (along x0 (mkVec (vx x0) (vy p) (vz p))) with 0 by (unfold along; cbn; ring). assert (H * off_axis x0 p <= H * R0) by (apply Rmult_le_compat_l; lra). lra.
    + unfold dist. cbn. rewrite <- (sqrt_square (- along x0 p)) by lra. f_equal. unfold along. ring.
Qed.

Lemma cone_apex p : H < along x0 p -> R0 * off_axis x0 p <= H * (along x0 p - H) -> distance_to (in_cone x0 R0 H) p (ConeDistance x0 R0 H true p).
Proof.
  intros L B. destruct (cone_eq x0 R0 H true p HH) as (ey & ez & _ & _ & ->). rewrite Rmult_1_l.
  destruct (Rlt_dec (along x0 p) 0) as [c1|c1]; [lra|]. destruct (Rlt_dec H (along x0 p)) as [c2|c2]; [|lra]. pose proof (off_pos x0 p) as Rp. set (l := along x0 p) in *. set (r := off_axis x0 p) in *. split.
  - intros q [Q1 Q2]. pose proof (dist_ge x0 p q) as Dg. fold l r in Dg. rewrite <- (sqrt_square (dist p q)) by apply dist_pos. apply sqrt_le_1_alt.
    pose proof (off_pos x0 q) as Sp. set (lq := along x0 q) in *. set (rq := off_axis x0 q) in *.
    apply Rle_trans with ((l - lq) * (l - lq) + (r - rq) * (r - rq)); [|exact Dg].
    (* (l-H)(H-lq) >= r rq *)
    assert (K : r * rq <= (l - H) * (H - lq)).
    { apply Rmult_le_reg_l with (H * R0); [nra|]. replace (H * R0 * (r * rq)) with ((R0 * r) * (H * rq)) by ring. replace (H * R0 * ((l - H) * (H - lq))) with ((H * (l - H)) * (R0 * (H - lq))) by ring.
      apply Rmult_le_compat; try assumption; apply Rmult_le_pos; lra. }
    pose proof (sq_pos (H - lq)). pose proof (sq_pos rq). nra.
  - exists (mkVec (vx x0 + H) (vy x0) (vz x0)). split.
    + unfold in_cone, along, off_axis. cbn. replace ((vy x0 - vy x0) * (vy x0 - vy x0) + (vz x0 - vz x0) * (vz x0 - vz x0)) with 0 by ring. rewrite sqrt_0. lra.
    + unfold dist. cbn. f_equal. pose proof (off_sq x0 p) as Sq. fold r in Sq. rewrite Sq. unfold l, along. ring.
Qed.

(** ** Too large *)
Lemma rim_closer p : 0 < off_axis x0 p -> exists q, in_cone x0 R0 H q /\ dist p q = sqrt (along x0 p * along x0 p + (off_axis x0 p - R0) * (off_axis x0 p - R0)).
Proof.
  intros P. destruct (in_plane x0 p 0 R0) as (q & E1 & E2 & E3); [exact P|lra|]. exists q. split; [split; rewrite E1; [lra|rewrite E2; lra]|]. rewrite E3. f_equal. ring.
Qed.
Lemma below_too_large p : along x0 p < 0 -> R0 <= off_axis x0 p -> exists q, in_cone x0 R0 H q /\ dist p q < ConeDistance x0 R0 H true p.
Proof.
  intros L B. destruct (rim_closer p) as (q & Q1 & Q2); [lra|]. exists q. split; [exact Q1|]. rewrite Q2.
  destruct (cone_eq x0 R0 H true p HH) as (ey & ez & _ & _ & ->). rewrite Rmult_1_l. destruct (Rlt_dec (along x0 p) 0); [|lra]. destruct (Rlt_dec (off_axis x0 p) R0); [lra|].
  apply sqrt_lt_1_alt. pose proof (sq_pos (along x0 p)). pose proof (sq_pos (off_axis x0 p - R0)). split; [lra|]. nra.
Qed.
Lemma beside_too_large p : sqrt epsilon < off_axis x0 p -> 0 < along x0 p <= H -> H * along x0 p < R0 * (off_axis x0 p - R0) -> exists q, in_cone x0 R0 H q /\ dist p q < ConeDistance x0 R0 H true p.
Proof.
  intros Fr L B. pose proof (sqrt_pos epsilon) as Ep. destruct (rim_closer p) as (q & Q1 & Q2); [lra|]. exists q. split; [exact Q1|]. rewrite Q2.
  destruct (cone_eq x0 R0 H true p HH) as (ey & ez & He & Far & ->). rewrite Rmult_1_l. destruct (Rlt_dec (along x0 p) 0); [lra|]. destruct (Rlt_dec H (along x0 p)); [lra|].
  destruct (face_far x0 R0 H HH HR ey ez p He (Far Fr)) as [_ E2]. rewrite E2. fold S.
  destruct (Rlt_dec ((H * along x0 p - R0 * (off_axis x0 p - R0)) / S) 0) as [C|C]; [|exfalso; apply C; apply div_neg_iff; [apply S_pos|lra]].
  destruct (Far Fr) as [W1 W2]. pose proof (off_sq x0 p) as Sq.
  assert (E : (vy p - vy x0 - R0 * ey) * (vy p - vy x0 - R0 * ey) + (vz p - vz x0 - R0 * ez) * (vz p - vz x0 - R0 * ez) = (off_axis x0 p - R0) * (off_axis x0 p - R0)).
  { transitivity (off_axis x0 p * off_axis x0 p - 2 * R0 * ((vy p - vy x0) * ey + (vz p - vz x0) * ez) + R0 * R0 * (ey * ey + ez * ez)); [rewrite Sq; ring|]. rewrite W1, He. ring. }
  apply sqrt_lt_1_alt. pose proof (sq_pos (along x0 p)). pose proof (sq_pos (off_axis x0 p - R0)). split; [lra|]. assert (0 < along x0 p * along x0 p) by nra. lra.
Qed.
Lemma beyond_too_large p : H < along x0 p -> H * (along x0 p - H) < R0 * off_axis x0 p -> exists q, in_cone x0 R0 H q /\ dist p q < ConeDistance x0 R0 H true p.
Proof.
  intros L B. pose proof (off_pos x0 p) as Rp.
  assert (0 < off_axis x0 p) as Pr. { assert (0 < H * (along x0 p - H)) by (apply Rmult_lt_0_compat; lra). nra. }
  destruct (cone_eq x0 R0 H true p HH) as (ey & ez & _ & _ & ->). rewrite Rmult_1_l. destruct (Rlt_dec (along x0 p) 0) as [c1|c1]; [lra|]. destruct (Rlt_dec H (along x0 p)) as [c2|c2]; [|lra].
  set (l := along x0 p) in *. set (r := off_axis x0 p) in *. set (d := R0 * r - H * (l - H)). assert (D : 0 < d) by (unfold d; lra).
  pose proof S_pos as Sp. pose proof S_sq as SS. assert (P2 : 0 < S * S) by nra.
  set (t := Rmin 1 (d / (S * S))). assert (T0 : 0 < t) by (apply Rmin_glb_lt; [lra|now apply Rdiv_lt_0_compat]).
  assert (T1 : t <= 1) by apply Rmin_l. assert (T2 : t * (S * S) <= d). { pose proof (Rmin_r 1 (d / (S * S))) as M. fold t in M. apply Rmult_le_compat_r with (r := S * S) in M; [|lra]. replace (d / (S * S) * (S * S)) with d in M by (field; lra). exact M. }
  destruct (in_plane x0 p (H - t * H) (t * R0)) as (q & E1 & E2 & E3); [exact Pr|apply Rmult_le_pos; lra|].
  exists q. split.
  - split; rewrite E1; [nra|]. rewrite E2. lra.
  - rewrite E3. fold l r. apply sqrt_lt_1_alt. split; [pose proof (sq_pos (l - (H - t * H))); pose proof (sq_pos (r - t * R0)); lra|].
    replace ((l - (H - t * H)) * (l - (H - t * H)) + (r - t * R0) * (r - t * R0)) with ((l - H) * (l - H) + r * r - 2 * t * d + t * (t * (H * H + R0 * R0))) by (unfold d; ring).
    rewrite <- SS. assert (t * (t * (S * S)) <= t * d) by (apply Rmult_le_compat_l; lra). assert (0 < t * d) by now apply Rmult_lt_0_compat. lra.
Qed.
End cone.
