(** Lemmas for C30, C31 and C61. *)
From Coq Require Import List ZArith Reals Lia Lra Psatz FunctionalExtensionality.
From Verif Require Import FluxModel FluxSpec FluxProofs LimiterModel LimiterSpec.
Import ListNotations.
Local Open Scope R_scope.

Ltac plain t := lazymatch t with context[Rle_dec _ _] => fail | context[Rlt_dec _ _] => fail | _ => idtac end.
Ltac cases := unfold Rmin, Rmax in *; repeat (match goal with
  | |- context[Rle_dec ?a ?b] => plain a; plain b; destruct (Rle_dec a b)
  | |- context[Rlt_dec ?a ?b] => plain a; plain b; destruct (Rlt_dec a b) end; try (exfalso; lra)).

Lemma same_sign a b : ~ a * b <= 0 -> (0 < a /\ 0 < b) \/ (a < 0 /\ b < 0).
Proof.
  intros h. destruct (Rtotal_order a 0) as [p | [-> | p]].
  - right. split; [exact p|]. destruct (Rlt_dec b 0); nra.
  - exfalso. apply h. lra.
  - left. split; [exact p|]. destruct (Rlt_dec 0 b); nra.
Qed.

Lemma minmod_limited : limited MinMod.
Proof.
  split; unfold MinMod; intros.
  - cases; lra.
  - cases; nra.
  - cases; lra.
  - cases; lra.
  - cases; lra.
  - cases; lra.
Qed.

Lemma harmonic_pos a b : 0 < a -> 0 < b -> 0 < 2 * a * b / (a + b) <= 2 * Rmin a b.
Proof.
  intros Ha Hb. assert (0 < 2 * a * b) by nra. split; [apply Rdiv_lt_0_compat; lra|].
  apply Rmult_le_reg_r with (a + b); [lra|]. replace (2 * a * b / (a + b) * (a + b)) with (2 * a * b) by (field; lra).
  unfold Rmin. destruct (Rle_dec a b); nra.
Qed.

Lemma vanleer_limited : limited VanLeer.
Proof.
  split; unfold VanLeer; cbv zeta; intros.
  - replace (2 * b * a) with (2 * a * b) by ring. rewrite (Rplus_comm b a). reflexivity.
  - destruct (Rlt_dec 0 (2 * a * b)); [nra | reflexivity].
  - destruct (Rlt_dec 0 (2 * a * b)); [apply harmonic_pos; auto | nra].
  - destruct (Rlt_dec 0 (2 * a * b)); [|nra].
    pose proof (harmonic_pos (- a) (- b) ltac:(lra) ltac:(lra)) as P.
    replace (2 * - a * - b / (- a + - b)) with (- (2 * a * b / (a + b))) in P by (field; lra).
    unfold Rmin in P. unfold Rmax. destruct (Rle_dec (- a) (- b)), (Rle_dec a b); lra.
  - destruct (Req_EM_T a 0) as [-> | na].
    + destruct (Rlt_dec 0 (2 * 0 * 0)); lra.
    + destruct (Rlt_dec 0 (2 * a * a)); [field; lra|]. exfalso. assert (0 < a * a) by (destruct (Rlt_dec 0 a); nra). lra.
  - replace (2 * - a * - b) with (2 * a * b) by ring. destruct (Rlt_dec 0 (2 * a * b)); [|ring].
    assert (a + b <> 0) by nra. field. lra.
Qed.

Lemma central_minmod a b : CentralDifference MinModLimiter a b = MinMod a b.
Proof.
  unfold CentralDifference, MinModLimiter. cbv zeta. destruct (Rle_dec (a * b) 0) as [h | h].
  - symmetry. apply (lim_extremum _ minmod_limited). exact h.
  - unfold MinMod. assert (ab : (0 < a /\ 0 < b) \/ (a < 0 /\ b < 0)) by (apply same_sign; exact h).
    assert (E1 : 2 / (1 + b / a) = 2 * a / (a + b)) by (field; lra).
    assert (E2 : b / a * (2 / (1 + b / a)) = 2 * b / (a + b)) by (field; lra).
    rewrite E2, E1. clear E1 E2. destruct ab as [[ha hb] | [ha hb]].
    + destruct (Rlt_dec 0 b); [|lra]. rewrite (Rmax_right 0) by (apply Rmin_glb; lra).
      unfold Rmin at 2. destruct (Rle_dec a b) as [l | l].
      * rewrite Rmin_left. field; lra. apply Rmult_le_compat_r; [apply Rlt_le, Rinv_0_lt_compat; lra | lra].
      * rewrite Rmin_right. field; lra. apply Rmult_le_compat_r; [apply Rlt_le, Rinv_0_lt_compat; lra | lra].
    + destruct (Rlt_dec 0 b); [lra|]. rewrite (Rmin_right 0) by (apply Rmax_lub; lra).
      assert (N : / (a + b) < 0) by (apply Rinv_lt_0_compat; lra).
      unfold Rmax. destruct (Rle_dec a b) as [l | l].
      * rewrite Rmin_right. field; lra. unfold Rdiv. nra.
      * rewrite Rmin_left. field; lra. unfold Rdiv. nra.
Qed.

Lemma central_vanleer a b : CentralDifference VanLeerLimiter a b = VanLeer a b.
Proof.
  unfold CentralDifference, VanLeerLimiter, VanLeer. cbv zeta.
  destruct (Rle_dec (a * b) 0); destruct (Rlt_dec 0 (2 * a * b)); try nra; auto.
  assert (a <> 0) by nra. assert (a + b <> 0) by nra. field. lra.
Qed.

Lemma central_lane lim a b : CentralDifference_lane lim a b = CentralDifference lim a b.
Proof. unfold CentralDifference_lane, CentralDifference. destruct (Rlt_dec 0 (a * b)), (Rle_dec (a * b) 0); lra. Qed.

(** ** Reconstruction *)
Lemma limited_inside phi qL qM qR : limited phi ->
  inside qM (qM + 1 / 2 * LimitedSlope phi qL qM qR) qR /\ inside qL (qM - 1 / 2 * LimitedSlope phi qL qM qR) qM.
Proof.
  intros L. unfold inside, between, LimitedSlope.
  destruct (Rle_dec ((qM - qL) * (qR - qM)) 0) as [h | h].
  - rewrite (lim_extremum _ L) by auto. unfold Rmin, Rmax. destruct (Rle_dec qM qR), (Rle_dec qL qM); lra.
  - destruct (same_sign _ _ h) as [[p H] | [H H0]].
    + pose proof (lim_rising _ L _ _ p H) as P.
      pose proof (Rmin_l (qM - qL) (qR - qM)). pose proof (Rmin_r (qM - qL) (qR - qM)).
      set (s := phi _ _) in *. set (m := Rmin (qM - qL) (qR - qM)) in *. clearbody s m.
      rewrite !Rmin_left, !Rmax_right by lra. lra.
    + pose proof (lim_falling _ L _ _ H H0) as P.
      pose proof (Rmax_l (qM - qL) (qR - qM)). pose proof (Rmax_r (qM - qL) (qR - qM)).
      set (s := phi _ _) in *. set (m := Rmax (qM - qL) (qR - qM)) in *. clearbody s m.
      rewrite !Rmin_right, !Rmax_left by lra. lra.
Qed.

Lemma limited_zero phi : limited phi -> phi 0 0 = 0.
Proof. intros L. apply (lim_extremum _ L). lra. Qed.

Section Muscl.
Variables (S K : Type) (cons flux : S -> K -> R) (cfc : (K -> R) -> S) (base : S -> S -> K -> R).

Lemma muscl_state_flat right lam q slope : cfc (cons q) = q -> (forall k, slope k = 0) ->
  MusclState S K cons flux cfc right lam q slope = q.
Proof.
  intros Hq Hs. unfold MusclState. cbv zeta.
  assert (E1 : (fun k => cons q k - 1 / 2 * slope k) = cons q) by (extensionality k; rewrite Hs; ring).
  assert (E2 : (fun k => cons q k + 1 / 2 * slope k) = cons q) by (extensionality k; rewrite Hs; ring).
  rewrite E1, E2, Hq.
  assert (E3 : (fun k => (if right then cons q k else cons q k) + lam * (flux q k - flux q k)) = cons q)
    by (extensionality k; destruct right; ring).
  rewrite E3. exact Hq.
Qed.

Lemma muscl_constant limiter dt dx q : limiter 0 0 = 0 -> cfc (cons q) = q ->
  MusclFlux S K cons flux cfc base limiter dt dx q q q q = base q q.
Proof.
  intros L Hq. unfold MusclFlux. cbv zeta. unfold LimitedSlope.
  rewrite !muscl_state_flat; auto; intros k; rewrite !Rminus_diag_eq; auto.
Qed.

Lemma muscl_constant_gradients dt dx q g0 g1 : (forall k, g0 k = 0) -> (forall k, g1 k = 0) -> cfc (cons q) = q ->
  MusclFlux_gradients S K cons flux cfc base dt dx q q g0 g1 = base q q.
Proof.
  intros H0 H1 Hq. unfold MusclFlux_gradients. cbv zeta. rewrite !muscl_state_flat; auto; intros k; rewrite ?H0, ?H1; ring.
Qed.

Lemma muscl_masked_constant limiter dt dx v0 v1 v2 v3 q : limiter 0 0 = 0 -> cfc (cons q) = q ->
  MusclFlux_masked_open S K cons flux cfc base limiter dt dx v0 v1 v2 v3 q q q q = base q q.
Proof.
  intros L Hq. unfold MusclFlux_masked_open. cbv zeta. unfold LimitedSlope_masked.
  rewrite !muscl_state_flat; auto; intros k; rewrite !Rminus_diag_eq; auto; match goal with |- context[if ?b then _ else _] => destruct b end; auto.
Qed.

(** A cell whose neighbour is covered uses no slope; with all four cells open the masked flux is the plain one. *)
Lemma muscl_masked_all limiter dt dx v0 v1 v2 v3 s0 s1 s2 s3 : 0 < v0 -> 0 < v1 -> 0 < v2 -> 0 < v3 ->
  MusclFlux_masked_open S K cons flux cfc base limiter dt dx v0 v1 v2 v3 s0 s1 s2 s3
  = MusclFlux S K cons flux cfc base limiter dt dx s0 s1 s2 s3.
Proof.
  intros. unfold MusclFlux_masked_open. cbv zeta.
  destruct (Rlt_dec 0 v0), (Rlt_dec 0 v1), (Rlt_dec 0 v2), (Rlt_dec 0 v3); try lra. reflexivity.
Qed.

Lemma muscl_masked_first_order limiter dt dx v0 v1 v2 v3 s0 s1 s2 s3 : limiter 0 0 = 0 ->
  cfc (cons s1) = s1 -> cfc (cons s2) = s2 -> v0 <= 0 -> v3 <= 0 ->
  MusclFlux_masked_open S K cons flux cfc base limiter dt dx v0 v1 v2 v3 s0 s1 s2 s3 = base s1 s2.
Proof.
  intros L H1 H2 h0 h3. unfold MusclFlux_masked_open. cbv zeta. unfold LimitedSlope_masked.
  destruct (Rlt_dec 0 v0); [lra|]. destruct (Rlt_dec 0 v3); [lra|]. rewrite Bool.andb_false_r. cbn [andb].
  rewrite !muscl_state_flat; auto.
Qed.
End Muscl.

(** ** Advection *)
Notation am v phi := (ScalarMuscl (AdvectionFlux v) (AdvectionRiemann v) phi).

Lemma advection_muscl_flux v phi dt dx a b c d : 0 < dx ->
  am v phi dt dx a b c d =
  if Rlt_dec 0 v then v * (b + 1 / 2 * (1 - dt / dx * v) * LimitedSlope phi a b c)
  else v * (c - 1 / 2 * (1 + dt / dx * v) * LimitedSlope phi b c d).
Proof.
  intros Hx. unfold ScalarMuscl, MusclFlux, MusclState, GodunovFlux, AdvectionRiemann, AdvectionFlux. cbv zeta.
  destruct (Rlt_dec 0 v); field; lra.
Qed.

Definition ratio (x y : R) : R := if Req_EM_T y 0 then 0 else x / y.
Lemma ratio_mul phi a b : limited phi -> ratio (phi a b) a * a = phi a b.
Proof.
  intros L. unfold ratio. destruct (Req_EM_T a 0) as [-> | n]; [|field; auto].
  rewrite (lim_extremum _ L) by lra. ring.
Qed.
Lemma ratio_bound phi a b : limited phi -> 0 <= ratio (phi a b) a <= 2.
Proof.
  intros L. unfold ratio. destruct (Req_EM_T a 0) as [-> | n]; [lra|].
  destruct (Rle_dec (a * b) 0) as [h | h].
  - rewrite (lim_extremum _ L) by auto. unfold Rdiv. rewrite Rmult_0_l. lra.
  - assert (ab : (0 < a /\ 0 < b) \/ (a < 0 /\ b < 0)) by (apply same_sign; exact h).
    assert (E : phi a b / a * a = phi a b) by (field; auto). set (t := phi a b / a) in *. clearbody t.
    destruct ab as [[ha hb] | [ha hb]].
    + pose proof (lim_rising _ L _ _ ha hb). pose proof (Rmin_l a b). split; nra.
    + pose proof (lim_falling _ L _ _ ha hb). pose proof (Rmax_l a b). split; nra.
Qed.

(** Coefficient of one face: [th1] from the cell on one side, [th2] from the cell on the other side. *)
Lemma muscl_coef nu th1 th2 : 0 <= nu <= 1 -> 0 <= th1 <= 2 -> 0 <= th2 <= 2 ->
  0 <= nu * (1 + 1 / 2 * (1 - nu) * (th1 - th2)) <= 1.
Proof.
  intros Hn H1 H2. assert (- (1 - nu) <= 1 / 2 * (1 - nu) * (th1 - th2) <= 1 - nu) by (split; nra).
  set (x := 1 / 2 * (1 - nu) * (th1 - th2)) in *. clearbody x. split; nra.
Qed.

Section AdvectionMuscl.
Variables (v : R) (phi : R -> R -> R) (L : limited phi) (dt dx : R).
Hypotheses (Hx : 0 < dx) (Ht : 0 <= dt) (Hs : dt / dx * Rabs v <= 1).
Let nu := dt / dx * Rabs v.
Variable g : Z -> R.
Let d (i : Z) := g i - g (i - 1)%Z.
(** slope of cell i as a multiple of the difference at its left resp. right face *)
Let thl (i : Z) := ratio (phi (d i) (d (i + 1)%Z)) (d i).
Let thr (i : Z) := ratio (phi (d (i + 1)%Z) (d i)) (d (i + 1)%Z).
Let C (i : Z) := if Rlt_dec 0 v then nu * (1 + 1 / 2 * (1 - nu) * (thl i - thr (i - 1)%Z)) else 0.
Let D (i : Z) := if Rlt_dec 0 v then 0 else nu * (1 + 1 / 2 * (1 - nu) * (thr (i - 1)%Z - thl i)).

Definition muscl_grid : Z -> R :=
  fv_update dt dx (fun i => am v phi dt dx (g (i - 2)%Z) (g (i - 1)%Z) (g i) (g (i + 1)%Z)) g.

Lemma nu_range : 0 <= nu <= 1.
Proof. unfold nu. split; [apply Rmult_le_pos; [apply ratio_ge0; auto | apply Rabs_pos] | exact Hs]. Qed.

Lemma muscl_CD i : 0 <= C i /\ 0 <= D i /\ C i + D i <= 1.
Proof.
  pose proof nu_range as Hn. unfold C, D, thl, thr. destruct (Rlt_dec 0 v).
  - pose proof (muscl_coef nu (ratio (phi (d i) (d (i + 1)%Z)) (d i)) (ratio (phi (d (i - 1 + 1)%Z) (d (i - 1)%Z)) (d (i - 1 + 1)%Z)) Hn
                 (ratio_bound _ _ _ L) (ratio_bound _ _ _ L)). lra.
  - pose proof (muscl_coef nu (ratio (phi (d (i - 1 + 1)%Z) (d (i - 1)%Z)) (d (i - 1 + 1)%Z)) (ratio (phi (d i) (d (i + 1)%Z)) (d i)) Hn
                 (ratio_bound _ _ _ L) (ratio_bound _ _ _ L)). lra.
Qed.

Lemma slope_thl i : LimitedSlope phi (g (i - 1)%Z) (g i) (g (i + 1)%Z) = thl i * d i.
Proof. unfold thl. rewrite ratio_mul by auto. unfold LimitedSlope, d. replace (i + 1 - 1)%Z with i by lia. reflexivity. Qed.
Lemma slope_thr i : LimitedSlope phi (g (i - 1)%Z) (g i) (g (i + 1)%Z) = thr i * d (i + 1)%Z.
Proof.
  unfold thr. rewrite ratio_mul by auto. unfold LimitedSlope, d. replace (i + 1 - 1)%Z with i by lia. apply (lim_symmetric _ L).
Qed.

Lemma muscl_incremental i : incremental C D g muscl_grid i.
Proof.
  unfold incremental, muscl_grid, fv_update. rewrite !advection_muscl_flux by auto.
  assert (Nv : dt / dx * v = if Rlt_dec 0 v then nu else - nu).
  { unfold nu. destruct (Rlt_dec 0 v); [rewrite Rabs_right by lra; ring | rewrite Rabs_left1 by lra; ring]. }
  replace (i + 1 - 2)%Z with (i - 1)%Z by lia. replace (i + 1 - 1)%Z with i by lia.
  replace (i - 2)%Z with (i - 1 - 1)%Z by lia.
  unfold C, D. destruct (Rlt_dec 0 v) as [p | p].
  - replace (i - 1 + 1)%Z with i by lia.
    assert (E1 : LimitedSlope phi (g (i - 1 - 1)%Z) (g (i - 1)%Z) (g i) = thr (i - 1)%Z * d i).
    { pose proof (slope_thr (i - 1)%Z) as Q. replace (i - 1 + 1)%Z with i in Q by lia. exact Q. }
    rewrite E1, slope_thl.
    replace (dt / dx * (v * (g (i - 1)%Z + 1 / 2 * (1 - dt / dx * v) * (thr (i - 1)%Z * d i)) - v * (g i + 1 / 2 * (1 - dt / dx * v) * (thl i * d i))))
      with (dt / dx * v * (g (i - 1)%Z + 1 / 2 * (1 - dt / dx * v) * (thr (i - 1)%Z * d i) - (g i + 1 / 2 * (1 - dt / dx * v) * (thl i * d i)))) by ring.
    rewrite Nv. set (nn := nu). set (a := thr (i - 1)%Z). set (b := thl i). unfold d. ring.
  - assert (E1 : LimitedSlope phi (g i) (g (i + 1)%Z) (g (i + 1 + 1)%Z) = thl (i + 1)%Z * d (i + 1)%Z).
    { pose proof (slope_thl (i + 1)%Z) as Q. replace (i + 1 - 1)%Z with i in Q by lia. exact Q. }
    rewrite E1, slope_thr.
    replace (dt / dx * (v * (g i - 1 / 2 * (1 + dt / dx * v) * (thr i * d (i + 1)%Z)) - v * (g (i + 1)%Z - 1 / 2 * (1 + dt / dx * v) * (thl (i + 1)%Z * d (i + 1)%Z))))
      with (dt / dx * v * (g i - 1 / 2 * (1 + dt / dx * v) * (thr i * d (i + 1)%Z) - (g (i + 1)%Z - 1 / 2 * (1 + dt / dx * v) * (thl (i + 1)%Z * d (i + 1)%Z)))) by ring.
    rewrite Nv. replace (i + 1 - 1)%Z with i by lia. set (nn := nu). set (a := thr i). set (b := thl (i + 1)%Z). unfold d.
    replace (i + 1 - 1)%Z with i by lia. ring.
Qed.

Lemma muscl_cell_max i :
  between (min3 (g (i - 1)%Z) (g i) (g (i + 1)%Z)) (muscl_grid i) (max3 (g (i - 1)%Z) (g i) (g (i + 1)%Z)).
Proof.
  unfold between. rewrite (muscl_incremental i). pose proof (muscl_CD i). pose proof (muscl_CD (i + 1)%Z).
  apply convex3; try lra. unfold C, D in *. destruct (Rlt_dec 0 v); lra.
Qed.

Lemma muscl_window a m :
  variation muscl_grid a m <= Rabs (g a - g (a - 1)%Z) + variation g a m + Rabs (g (a + Z.of_nat m + 1)%Z - g (a + Z.of_nat m)%Z).
Proof. apply (harten_window C D); intros; [apply muscl_incremental | apply muscl_CD]. Qed.
End AdvectionMuscl.

(** Linear data are transported exactly. *)
Lemma muscl_linear v phi dt dx a b i : (forall x, phi x x = x) -> 0 < dx ->
  muscl_grid v phi dt dx (fun j => a + b * IZR j) i = a + b * (IZR i - v * dt / dx).
Proof.
  intros L Hx. unfold muscl_grid, fv_update. rewrite !advection_muscl_flux by auto. unfold LimitedSlope.
  rewrite !plus_IZR, !minus_IZR, !plus_IZR. destruct (Rlt_dec 0 v).
  - replace (a + b * (IZR i - 1) - (a + b * (IZR i - 2))) with b by ring. replace (a + b * IZR i - (a + b * (IZR i - 1))) with b by ring.
    replace (a + b * (IZR i + 1 - 1) - (a + b * (IZR i + 1 - 2))) with b by ring.
    replace (a + b * (IZR i + 1) - (a + b * (IZR i + 1 - 1))) with b by ring. rewrite L. field. lra.
  - replace (a + b * IZR i - (a + b * (IZR i - 1))) with b by ring. replace (a + b * (IZR i + 1) - (a + b * IZR i)) with b by ring.
    replace (a + b * (IZR i + 1) - (a + b * (IZR i + 1 - 1))) with b by ring.
    replace (a + b * (IZR i + 1 + 1) - (a + b * (IZR i + 1))) with b by ring. rewrite L. field. lra.
Qed.

Lemma muscl_step_max v phi dx n u dt : limited phi -> 0 < dx -> (0 < n)%Z -> 0 <= dt -> dt / dx * Rabs v <= 1 ->
  forall i, (0 <= i < n)%Z ->
  between (min3 (u (nearest n (i - 1))) (u i) (u (nearest n (i + 1))))
    (muscl_step (AdvectionFlux v) (AdvectionRiemann v) phi dx n u dt i)
    (max3 (u (nearest n (i - 1))) (u i) (u (nearest n (i + 1)))).
Proof.
  intros L Hx Hn Ht Hs i Hi. pose proof (muscl_cell_max v phi L dt dx Hx Ht Hs (transmissive n u) i) as P.
  rewrite !transmissive_nearest in P by lia. replace (nearest n i) with i in P by (unfold nearest; lia). exact P.
Qed.

Lemma muscl_step_tv v phi dx n u dt : limited phi -> 0 < dx -> (0 < n)%Z -> 0 <= dt -> dt / dx * Rabs v <= 1 ->
  total_variation n (muscl_step (AdvectionFlux v) (AdvectionRiemann v) phi dx n u dt) <= total_variation n u.
Proof.
  intros L Hx Hn Ht Hs. unfold total_variation.
  pose proof (muscl_window v phi L dt dx Hx Ht Hs (transmissive n u) 0%Z (Z.to_nat (n - 1))) as W.
  replace (0 + Z.of_nat (Z.to_nat (n - 1)))%Z with (n - 1)%Z in W by lia.
  rewrite !transmissive_nearest in W by lia. replace (n - 1 + 1)%Z with n in W by lia.
  replace (nearest n (0 - 1)) with 0%Z in W by (unfold nearest; lia). replace (nearest n 0) with 0%Z in W by (unfold nearest; lia).
  replace (nearest n n) with (n - 1)%Z in W by (unfold nearest; lia). replace (nearest n (n - 1)) with (n - 1)%Z in W by (unfold nearest; lia).
  rewrite !Rminus_diag_eq, Rabs_R0 in W by reflexivity.
  rewrite (variation_ext (transmissive n u) u) in W.
  2:{ intros i Hi. rewrite transmissive_nearest by lia. f_equal. unfold nearest. lia. }
  rewrite Rplus_0_l, Rplus_0_r in W. exact W.
Qed.

Lemma muscl_steps_ok v phi dx n dts : limited phi -> 0 < dx -> (0 < n)%Z -> forall u,
  stable_steps (muscl_step (AdvectionFlux v) (AdvectionRiemann v) phi dx n) 1 (GodunovStableDt (AdvectionSignals v) dx) n dts u ->
  total_variation n (muscl_steps (AdvectionFlux v) (AdvectionRiemann v) phi dx n dts u) <= total_variation n u /\
  (forall lo hi, (forall i, (0 <= i < n)%Z -> between lo (u i) hi) ->
   forall i, (0 <= i < n)%Z -> between lo (muscl_steps (AdvectionFlux v) (AdvectionRiemann v) phi dx n dts u i) hi).
Proof.
  intros L Hx Hn. unfold muscl_steps. induction dts as [|dt r IH]; intros u Hs; cbn [fold_left].
  - split; [lra | auto].
  - destruct Hs as (Ht & Hd & Hr). assert (Hc : dt / dx * Rabs v <= 1) by (eapply advection_dt; eauto; apply (Hd 0%Z); lia).
    destruct (IH _ Hr) as [I1 I2]. split.
    + eapply Rle_trans; [apply I1 | apply muscl_step_tv; auto].
    + intros lo hi Hu. apply I2. intros j Hj.
      destruct (muscl_step_max v phi dx n u dt L Hx Hn Ht Hc j Hj) as [A B].
      assert (N : forall k, between lo (u (nearest n k)) hi) by (intros k; apply Hu; unfold nearest; lia).
      split; [eapply Rle_trans; [|apply A] | eapply Rle_trans; [apply B|]].
      * apply min3_ge; [apply N | apply Hu; auto | apply N].
      * apply max3_le; [apply N | apply Hu; auto | apply N].
Qed.
