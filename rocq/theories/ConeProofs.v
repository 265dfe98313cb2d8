(** Proofs for C152. *)
From Coq Require Import Reals Bool Lra Lia Psatz.
From Verif Require Import TubeModel TubeSpec TubeProofs TubeProofs2 ConeModel ConeSpec.
Local Open Scope R_scope.

Lemma sqrt_lin a : 0 <= a -> sqrt (a * a) = a.
Proof. apply sqrt_square. Qed.
Lemma off_pos b p : 0 <= off_axis b p.
Proof. apply sqrt_pos. Qed.
Lemma off_sq b p : off_axis b p * off_axis b p = (vy p - vy b) * (vy p - vy b) + (vz p - vz b) * (vz p - vz b).
Proof. apply sqrt_sqrt. pose proof (Rle_0_sqr (vy p - vy b)). pose proof (Rle_0_sqr (vz p - vz b)). unfold Rsqr in *. lra. Qed.

(** The part of the function behind the first two branches, for a radial unit direction e *)
Definition face (x0 : vec) (R0 H : R) (ey ez : R) (p : vec) : R * R :=
  let rim := vadd x0 (vscale R0 (mkVec 0 ey ez)) in
  let t := normalized (vsub (vadd x0 (vscale H (mkVec 1 0 0))) rim) in
  let d := vdot t (vsub p rim) in (d, norm (vsub (vadd rim (vscale d t)) p)).
Lemma face_spec x0 R0 H ey ez p : 0 < H -> 0 < R0 -> ey * ey + ez * ez = 1 ->
  let l := vx p - vx x0 in let y := vy p - vy x0 in let z := vz p - vz x0 in
  let w := y * ey + z * ez in let w' := y * ez - z * ey in let s := sqrt (H * H + R0 * R0) in
  fst (face x0 R0 H ey ez p) = (H * l - R0 * (w - R0)) / s /\
  0 <= snd (face x0 R0 H ey ez p) /\
  snd (face x0 R0 H ey ez p) * snd (face x0 R0 H ey ez p) = (R0 * l + H * (w - R0)) * (R0 * l + H * (w - R0)) / (H * H + R0 * R0) + w' * w'.
Proof.
  intros HH HR He. cbv zeta.
  set (rim := vadd x0 (vscale R0 (mkVec 0 ey ez))). set (t0 := vsub (vadd x0 (vscale H (mkVec 1 0 0))) rim).
  assert (Q : vdot t0 t0 = H * H + R0 * R0).
  { unfold t0, rim, vdot, vsub, vadd, vscale. cbn. replace (H * H + R0 * R0) with (H * H + R0 * R0 * (ey * ey + ez * ez)) by (rewrite He; ring). ring. }
  assert (P : 0 < H * H + R0 * R0) by nra.
  assert (Sp : 0 < sqrt (H * H + R0 * R0)) by now apply sqrt_lt_R0.
  assert (SS : sqrt (H * H + R0 * R0) * sqrt (H * H + R0 * R0) = H * H + R0 * R0) by (apply sqrt_sqrt; lra).
  set (s := sqrt (H * H + R0 * R0)) in *.
  assert (En : normalized t0 = vscale (/ s) t0).
  { unfold normalized. rewrite Q. destruct (Rlt_dec 0 (H * H + R0 * R0)); [reflexivity|lra]. }
  set (l := vx p - vx x0). set (y := vy p - vy x0). set (z := vz p - vz x0).
  assert (Ed : vdot (normalized t0) (vsub p rim) = (H * l - R0 * ((y * ey + z * ez) - R0)) / s).
  { rewrite En. unfold t0, rim, vdot, vsub, vadd, vscale. cbn. unfold Rdiv.
    replace (H * l - R0 * ((y * ey + z * ez) - R0)) with (H * l - R0 * ((y * ey + z * ez) - R0 * (ey * ey + ez * ez))) by (rewrite He; ring).
    unfold l, y, z. ring. }
  unfold face. fold rim. fold t0. cbn [fst snd]. rewrite Ed. split; [reflexivity|]. split; [apply sqrt_pos|].
  unfold norm. rewrite sqrt_sqrt by apply dot_pos. rewrite En.
  set (d := (H * l - R0 * ((y * ey + z * ez) - R0)) / s).
  assert (E1 : vdot (vsub (vadd rim (vscale d (vscale (/ s) t0))) p) (vsub (vadd rim (vscale d (vscale (/ s) t0))) p) =
     d * d * (vdot t0 t0 * / s * / s) - 2 * d * (/ s * vdot t0 (vsub p rim)) + vdot (vsub p rim) (vsub p rim)).
  { unfold vdot, vsub, vadd, vscale. cbn. ring. }
  assert (E2 : / s * vdot t0 (vsub p rim) = d).
  { rewrite <- dot_scale_l, <- En. exact Ed. }
  assert (E3 : vdot (vsub p rim) (vsub p rim) = l * l + (y * y + z * z) - 2 * R0 * (y * ey + z * ez) + R0 * R0).
  { replace (R0 * R0) with (R0 * R0 * (ey * ey + ez * ez)) by (rewrite He; ring). unfold rim, vdot, vsub, vadd, vscale, l, y, z. cbn. ring. }
  rewrite E1, E2, E3, Q. replace ((H * H + R0 * R0) * / s * / s) with 1 by (rewrite <- SS; field; lra).
  set (w := y * ey + z * ez). set (w' := y * ez - z * ey).
  assert (E4 : y * y + z * z = w * w + w' * w').
  { unfold w, w'. replace (y * y + z * z) with ((y * y + z * z) * (ey * ey + ez * ez)) by (rewrite He; ring). ring. }
  rewrite E4. fold w in d. assert (Edd : d * d = (H * l - R0 * (w - R0)) * (H * l - R0 * (w - R0)) / (H * H + R0 * R0)).
  { unfold d. rewrite <- SS. field. lra. }
  replace (d * d * 1 - 2 * d * d + (l * l + (w * w + w' * w') - 2 * R0 * w + R0 * R0)) with (- (d * d) + (l * l + (w * w + w' * w') - 2 * R0 * w + R0 * R0)) by ring.
  rewrite Edd. field. lra.
Qed.

(** The radial unit direction that is used *)
Lemma rim_direction x0 p R0 : exists ey ez, ey * ey + ez * ez = 1 /\
  rim_point x0 (vsub p (vadd x0 (vscale (vdot (mkVec 1 0 0) (vsub p x0)) (mkVec 1 0 0)))) R0 = vadd x0 (vscale R0 (mkVec 0 ey ez)) /\
  (sqrt epsilon < off_axis x0 p -> (vy p - vy x0) * ey + (vz p - vz x0) * ez = off_axis x0 p /\ (vy p - vy x0) * ez - (vz p - vz x0) * ey = 0).
Proof.
  set (dp := vsub p (vadd x0 (vscale (vdot (mkVec 1 0 0) (vsub p x0)) (mkVec 1 0 0)))).
  assert (D0 : vx dp = 0) by (unfold dp, vdot; cbn; ring). assert (D1 : vy dp = vy p - vy x0) by (unfold dp; cbn; ring). assert (D2 : vz dp = vz p - vz x0) by (unfold dp; cbn; ring).
  assert (N : norm dp = off_axis x0 p). { unfold norm, off_axis, vdot. f_equal. rewrite D0, D1, D2. ring. }
  clearbody dp.
  unfold rim_point. rewrite N. destruct (Rlt_dec (sqrt epsilon) (off_axis x0 p)) as [C|C].
  - assert (Pr : 0 < off_axis x0 p) by (pose proof (sqrt_pos epsilon); lra). pose proof (off_sq x0 p) as Sq. set (r := off_axis x0 p) in *.
    assert (Dd : vdot dp dp = r * r) by (unfold vdot; rewrite D0, D1, D2, Sq; ring).
    assert (En : normalized dp = vscale (/ r) dp).
    { unfold normalized. rewrite Dd. destruct (Rlt_dec 0 (r * r)); [|nra]. rewrite sqrt_lin by lra. reflexivity. }
    exists (/ r * (vy p - vy x0)), (/ r * (vz p - vz x0)). split; [|split].
    + replace (/ r * (vy p - vy x0) * (/ r * (vy p - vy x0)) + / r * (vz p - vz x0) * (/ r * (vz p - vz x0))) with (/ r * / r * ((vy p - vy x0) * (vy p - vy x0) + (vz p - vz x0) * (vz p - vz x0))) by ring.
      rewrite <- Sq. field. lra.
    + rewrite En. apply vec_eq; cbn; rewrite ?D0, ?D1, ?D2; ring.
    + intros _. split; [|ring]. replace ((vy p - vy x0) * (/ r * (vy p - vy x0)) + (vz p - vz x0) * (/ r * (vz p - vz x0))) with (/ r * ((vy p - vy x0) * (vy p - vy x0) + (vz p - vz x0) * (vz p - vz x0))) by ring.
      rewrite <- Sq. field. lra.
  - exists 1, 0. split; [ring|]. split; [apply vec_eq; cbn; ring|]. intros Q. contradiction.
Qed.

(** The function in terms of positions and the face *)
Lemma cone_eq x0 R0 H inside p : 0 < H -> exists ey ez, ey * ey + ez * ez = 1 /\
  (sqrt epsilon < off_axis x0 p -> (vy p - vy x0) * ey + (vz p - vz x0) * ez = off_axis x0 p /\ (vy p - vy x0) * ez - (vz p - vz x0) * ey = 0) /\
  ConeDistance x0 R0 H inside p = (if inside then 1 else -1) *
   (if Rlt_dec (along x0 p) 0 then
      if Rlt_dec (off_axis x0 p) R0 then - along x0 p else sqrt (along x0 p * along x0 p + off_axis x0 p * off_axis x0 p)
    else if Rlt_dec H (along x0 p) then sqrt ((along x0 p - H) * (along x0 p - H) + off_axis x0 p * off_axis x0 p)
    else if Rlt_dec (fst (face x0 R0 H ey ez p)) 0 then
      sqrt (along x0 p * along x0 p + (along x0 p * along x0 p + (vy p - vy x0 - R0 * ey) * (vy p - vy x0 - R0 * ey) + (vz p - vz x0 - R0 * ez) * (vz p - vz x0 - R0 * ez)))
    else if Rlt_dec (R0 * (H - along x0 p)) (H * off_axis x0 p) then snd (face x0 R0 H ey ez p) else - Rmin (snd (face x0 R0 H ey ez p)) (along x0 p)).
Proof.
  intros HH. destruct (rim_direction x0 p R0) as (ey & ez & He & Er & Ew). exists ey, ez. split; [exact He|]. split; [exact Ew|].
  unfold ConeDistance. rewrite Er. set (l := vdot (mkVec 1 0 0) (vsub p x0)).
  assert (El : l = along x0 p) by (unfold l, along, vdot; cbn; ring).
  assert (N : norm (vsub p (vadd x0 (vscale l (mkVec 1 0 0)))) = off_axis x0 p).
  { unfold norm, off_axis, vdot. f_equal. cbn. rewrite El. unfold along. ring. }
  rewrite N, El. set (sg := if inside then 1 else -1). destruct (Rlt_dec (along x0 p) 0) as [C1|C1].
  - destruct (Rlt_dec (off_axis x0 p) R0); [reflexivity|]. f_equal. f_equal. f_equal. rewrite off_sq. unfold vdot. cbn. unfold along. ring.
  - destruct (Rlt_dec H (along x0 p)) as [C2|C2].
    + f_equal. unfold norm. f_equal. rewrite off_sq. unfold vdot. cbn. unfold along. ring.
    + fold (face x0 R0 H ey ez p). change (vdot (normalized (vsub (vadd x0 (vscale H (mkVec 1 0 0))) (vadd x0 (vscale R0 (mkVec 0 ey ez))))) (vsub p (vadd x0 (vscale R0 (mkVec 0 ey ez))))) with (fst (face x0 R0 H ey ez p)).
      destruct (Rlt_dec (fst (face x0 R0 H ey ez p)) 0) as [C3|C3].
      * f_equal. f_equal. f_equal. unfold vdot. cbn. unfold along. ring.
      * set (r := off_axis x0 p). assert (K : (1 - along x0 p / H) * R0 < r <-> R0 * (H - along x0 p) < H * r).
        { replace (R0 * (H - along x0 p)) with (H * ((1 - along x0 p / H) * R0)) by (field; lra). split; intros Q; nra. }
        destruct (Rlt_dec ((1 - along x0 p / H) * R0) r) as [C4|C4], (Rlt_dec (R0 * (H - along x0 p)) (H * r)) as [C5|C5]; try reflexivity; exfalso; tauto.
Qed.
