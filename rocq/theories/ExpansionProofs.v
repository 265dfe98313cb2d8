(** Lemmas for C92 - C94. *)
From Coq Require Import List Reals Bool Lra Lia.
From Verif Require Import GasModel ExpansionModel ExpansionSpec.
Import ListNotations.
Local Open Scope R_scope.

Lemma dot_sprod : forall a b, dot a b = sprod a b.
Proof. induction a as [|x a IH]; intros [|y b]; cbn [dot sprod]; try reflexivity; rewrite IH; reflexivity. Qed.
Lemma squaredNorm_sprod : forall a, squaredNorm a = sprod a a.
Proof. intro a. apply dot_sprod. Qed.
Lemma sprod_nonneg : forall a, 0 <= sprod a a.
Proof. induction a as [|x a IH]; cbn [sprod]; [lra|]. generalize (Rle_0_sqr x); unfold Rsqr; lra. Qed.
Lemma sprod_scale_l : forall k a b, sprod (vscale k a) b = k * sprod a b.
Proof. intros k; induction a as [|x a IH]; intros [|y b]; cbn [vscale map sprod]; try ring. unfold vscale in IH. rewrite IH. ring. Qed.
Lemma sprod_comm : forall a b, sprod a b = sprod b a.
Proof. induction a as [|x a IH]; intros [|y b]; cbn [sprod]; try ring. rewrite IH. ring. Qed.
Lemma sprod_scale2 : forall k a, sprod (vscale k a) (vscale k a) = k * k * sprod a a.
Proof. intros k a. rewrite sprod_scale_l, sprod_comm, sprod_scale_l. ring. Qed.
Lemma sprod_zeros : forall a, sprod (zeros a) (zeros a) = 0.
Proof. induction a as [|x a IH]; cbn [zeros map sprod]; [ring|]. unfold zeros in IH. rewrite IH. ring. Qed.
Lemma nth_vscale : forall k a i, nth i (vscale k a) 0 = k * nth i a 0.
Proof. intros k a i. unfold vscale. replace 0 with (k * 0) at 1 by ring. exact (map_nth (fun x => k * x) a 0 i). Qed.
Lemma vscale_div : forall r a, r <> 0 -> map (fun m => m / r) (vscale r a) = a.
Proof.
  intros r a Hr. unfold vscale. rewrite map_map. rewrite <- (map_id a) at 2. apply map_ext. intro x. field. exact Hr.
Qed.
Lemma div_vscale : forall r a, r <> 0 -> vscale r (map (fun m => m / r) a) = a.
Proof.
  intros r a Hr. unfold vscale. rewrite map_map. rewrite <- (map_id a) at 2. apply map_ext. intro x. field. exact Hr.
Qed.
Lemma kinetic_scaled : forall r a, r <> 0 -> KineticEnergy r (vscale r a) = r * sprod a a / 2.
Proof. intros r a Hr. unfold KineticEnergy. rewrite squaredNorm_sprod, sprod_scale2. field. exact Hr. Qed.
Lemma kinetic_velocity : forall r m, r <> 0 -> KineticEnergy r m = r * sprod (map (fun x => x / r) m) (map (fun x => x / r) m) / 2.
Proof. intros r m Hr. rewrite <- (div_vscale r m Hr) at 1. apply kinetic_scaled. exact Hr. Qed.
Lemma norm_scale : forall k n, 0 <= k -> sprod n n = 1 -> norm (vscale k n) = k.
Proof.
  intros k n Hk Hn. unfold norm. rewrite squaredNorm_sprod, sprod_scale2, Hn, Rmult_1_r. apply sqrt_square. exact Hk.
Qed.
Lemma norm_sqr : forall a, norm a * norm a = sprod a a.
Proof. intro a. unfold norm. rewrite squaredNorm_sprod. apply sqrt_sqrt. apply sprod_nonneg. Qed.
Lemma norm_nonneg : forall a, 0 <= norm a.
Proof. intro a. unfold norm. apply sqrt_pos. Qed.
Lemma sgn_pos : forall x, 0 < x -> sgn x = 1.
Proof. intros x H. unfold sgn. destruct (Rlt_dec 0 x) as [_|N]; [reflexivity|contradiction]. Qed.
Lemma sgn_neg : forall x, x < 0 -> sgn x = -1.
Proof. intros x H. unfold sgn. destruct (Rlt_dec 0 x) as [N|_]; [lra|]. destruct (Rlt_dec x 0) as [_|N]; [reflexivity|contradiction]. Qed.
Lemma sgn_zero : sgn 0 = 0.
Proof. unfold sgn. destruct (Rlt_dec 0 0) as [N|_]; [lra|]. destruct (Rlt_dec 0 0) as [N|_]; [lra|reflexivity]. Qed.
Lemma sgn_sqrt_sqr : forall x, (sgn x * sqrt (Rabs x)) * (sgn x * sqrt (Rabs x)) = Rabs x.
Proof.
  intro x. replace (sgn x * sqrt (Rabs x) * (sgn x * sqrt (Rabs x))) with (sgn x * sgn x * (sqrt (Rabs x) * sqrt (Rabs x))) by ring.
  rewrite sqrt_sqrt by apply Rabs_pos.
  destruct (Rtotal_order x 0) as [H|[H|H]].
  - rewrite sgn_neg by exact H. ring.
  - subst x. rewrite sgn_zero, Rabs_R0. ring.
  - rewrite sgn_pos by exact H. ring.
Qed.

(** ** shock *)
Section Shock.
Variables (g rho p c M2 w : R).
Hypothesis Hg : 1 < g.
Hypothesis Hrho : 0 < rho.
Hypothesis Hp : 0 < p.
Hypothesis HM : 0 < M2.
Hypothesis Hw : w * w = g * p / rho * M2.
Let rc := (g + 1) * M2 / ((g - 1) * M2 + 2).
Let pc := (2 * g * M2 - (g - 1)) / (g + 1).

Lemma den_pos : 0 < (g - 1) * M2 + 2.
Proof. assert (0 < (g - 1) * M2) by (apply Rmult_lt_0_compat; lra). lra. Qed.
Lemma num_pos : 0 < (g + 1) * M2.
Proof. apply Rmult_lt_0_compat; lra. Qed.
Lemma rc_pos : 0 < rc.
Proof. unfold rc. apply Rdiv_lt_0_compat; [apply num_pos | apply den_pos]. Qed.

Lemma shock_momentum : rho * (w * w) * (1 / rc - 1) = p * (1 - pc).
Proof.
  rewrite Hw. unfold rc, pc. generalize den_pos num_pos; intros D N. field. repeat split; try lra.
Qed.

(** energy balance; s is the speed of the shock *)
Lemma shock_energy : forall s,
  (w / rc) * (p * pc / (g - 1) + rho * rc * ((s + w / rc) * (s + w / rc)) / 2) + p * pc * (s + w / rc) =
  w * (p / (g - 1) + rho * ((s + w) * (s + w)) / 2) + p * (s + w).
Proof.
  intro s. generalize shock_momentum rc_pos; intros Hm Hrc.
  assert (E : (1 / rc) * (p * pc) * (g / (g - 1)) + rho * (w * w) * (1 / rc * (1 / rc)) / 2 = p * (g / (g - 1)) + rho * (w * w) / 2).
  { rewrite Hw. unfold rc, pc. generalize den_pos num_pos; intros D N. field. repeat split; try lra. }
  assert (A : (w / rc) * (p * pc / (g - 1) + rho * rc * ((s + w / rc) * (s + w / rc)) / 2) + p * pc * (s + w / rc) =
              w * ((1 / rc) * (p * pc) * (g / (g - 1)) + rho * (w * w) * (1 / rc * (1 / rc)) / 2) +
              s * (rho * (w * w) * (1 / rc - 1) + p * pc) + s * (rho * (w * w)) + w * rho * (s * s) / 2) by (field; split; lra).
  rewrite A, E, Hm. field. lra.
Qed.
End Shock.

Lemma sqr_pos : forall x, x <> 0 -> 0 < x * x.
Proof. intros x H. generalize (Rsqr_pos_lt x H). unfold Rsqr. lra. Qed.

(** the state computed by the code, in terms of the velocity v relative to the normal *)
Lemma pre_state : forall (eq : gas) (q : Complete) M_S n,
  1 < gamma eq -> 0 < density q -> 0 < pressure q -> 0 < speed_of_sound q ->
  speed_of_sound q * speed_of_sound q = gamma eq * pressure q / density q ->
  M_S <> Machnumber q ->
  let g := gamma eq in
  let M2 := (Machnumber q - M_S) * (Machnumber q - M_S) in
  let rc := (g + 1) * M2 / ((g - 1) * M2 + 2) in
  let pc := (2 * g * M2 - (g - 1)) / (g + 1) in
  let s := M_S * speed_of_sound q in
  let w := norm (velocity_of q) - s in
  let pre := ComputePreShockState eq q M_S n in
  0 < M2 /\ w <> 0 /\ w * w = g * pressure q / density q * M2 /\
  density pre = density q * rc /\ pressure pre = pressure q * pc /\ velocity_of pre = vscale (s + w / rc) n.
Proof.
  intros eq q M_S n Hg Hr Hp Hc Hc2 HM g M2 rc pc s w pre.
  assert (P : 0 < M2) by (apply sqr_pos; lra).
  assert (W : w = speed_of_sound q * (Machnumber q - M_S)) by (unfold w, s, Machnumber; field; lra).
  assert (RC : 0 < rc) by (unfold rc; apply rc_pos; [exact Hg | exact P]).
  split; [exact P|]. split; [rewrite W; apply Rmult_integral_contrapositive_currified; lra|].
  split.
  { rewrite W. unfold g. rewrite <- Hc2. unfold M2. ring. }
  split; [reflexivity|]. split; [reflexivity|].
  unfold pre, ComputePreShockState, velocity_of, CompleteFromPrim. cbn [density momentum p_density p_velocity].
  fold (velocity_of q). fold g M2 rc s.
  rewrite vscale_div.
  2:{ apply Rgt_not_eq. apply Rmult_lt_0_compat; assumption. }
  f_equal. unfold w. field. split; lra.
Qed.

Lemma vscale_ext : forall k n l, length l = length n -> (forall i, (i < length n)%nat -> nth i l 0 = k * nth i n 0) -> l = vscale k n.
Proof.
  intros k n l HL H. apply nth_ext with (d := 0) (d' := 0).
  - unfold vscale. rewrite map_length. exact HL.
  - intros i Hi. rewrite HL in Hi. rewrite nth_vscale. apply H. exact Hi.
Qed.

Lemma shock_forward : forall (eq : gas) (q : Complete) M_S n,
  1 < gamma eq -> 0 < density q -> 0 < pressure q -> 0 < speed_of_sound q ->
  speed_of_sound q * speed_of_sound q = gamma eq * pressure q / density q ->
  M_S <> Machnumber q -> unit_vector n ->
  velocity_of q = vscale (norm (velocity_of q)) n ->
  let pre := ComputePreShockState eq q M_S n in
  rankine_hugoniot (gamma eq) n (M_S * speed_of_sound q) (density pre) (velocity_of pre) (pressure pre)
                   (density q) (velocity_of q) (pressure q).
Proof.
  intros eq q M_S n Hg Hr Hp Hc Hc2 HM Hn Hv pre.
  destruct (pre_state eq q M_S n Hg Hr Hp Hc Hc2 HM) as [P [W0 [W2 [E1 [E2 E3]]]]].
  fold pre in E1, E2, E3.
  set (k := norm (velocity_of q)) in *. set (s := M_S * speed_of_sound q) in *. set (w := k - s) in *.
  set (M2 := (Machnumber q - M_S) * (Machnumber q - M_S)) in *.
  set (rc := (gamma eq + 1) * M2 / ((gamma eq - 1) * M2 + 2)) in *.
  set (pc := (2 * gamma eq * M2 - (gamma eq - 1)) / (gamma eq + 1)) in *.
  assert (RC : 0 < rc) by (unfold rc; apply rc_pos; [exact Hg | exact P]).
  assert (SM := shock_momentum (gamma eq) (density q) (pressure q) M2 w Hg Hr P W2). fold rc pc in SM.
  assert (SE := shock_energy (gamma eq) (density q) (pressure q) M2 w Hg Hr P W2 s). fold rc pc in SE.
  unfold rankine_hugoniot, total_energy. rewrite E1, E2, E3, Hv.
  rewrite !sprod_scale2, !sprod_scale_l. unfold unit_vector in Hn. rewrite Hn, !Rmult_1_r.
  replace (s + w / rc - s) with (w / rc) by ring. replace (k - s) with w by reflexivity.
  assert (K : k = s + w) by (unfold w; ring). clearbody w pc rc. rewrite K.
  split; [field; lra|]. split.
  - intros i Hi. rewrite !nth_vscale.
    assert (A : density q * rc * (w / rc) * ((s + w / rc) * nth i n 0) + pressure q * pc * nth i n 0 -
                (density q * w * ((s + w) * nth i n 0) + pressure q * nth i n 0) =
                (density q * (w * w) * (1 / rc - 1) - pressure q * (1 - pc)) * nth i n 0) by (field; lra).
    rewrite SM in A. lra.
  - exact SE.
Qed.

Lemma shock_backward : forall (eq : gas) (q : Complete) M_S n,
  1 < gamma eq -> 0 < density q -> 0 < pressure q -> 0 < speed_of_sound q ->
  speed_of_sound q * speed_of_sound q = gamma eq * pressure q / density q ->
  M_S <> Machnumber q -> unit_vector n -> length (momentum q) = length n ->
  let pre := ComputePreShockState eq q M_S n in
  rankine_hugoniot (gamma eq) n (M_S * speed_of_sound q) (density pre) (velocity_of pre) (pressure pre)
                   (density q) (velocity_of q) (pressure q) ->
  velocity_of q = vscale (norm (velocity_of q)) n.
Proof.
  intros eq q M_S n Hg Hr Hp Hc Hc2 HM Hn HL pre.
  destruct (pre_state eq q M_S n Hg Hr Hp Hc Hc2 HM) as [P [W0 [W2 [E1 [E2 E3]]]]].
  fold pre in E1, E2, E3.
  set (k := norm (velocity_of q)) in *. set (s := M_S * speed_of_sound q) in *. set (w := k - s) in *.
  set (M2 := (Machnumber q - M_S) * (Machnumber q - M_S)) in *.
  set (rc := (gamma eq + 1) * M2 / ((gamma eq - 1) * M2 + 2)) in *.
  set (pc := (2 * gamma eq * M2 - (gamma eq - 1)) / (gamma eq + 1)) in *.
  assert (RC : 0 < rc) by (unfold rc; apply rc_pos; [exact Hg | exact P]).
  assert (SM := shock_momentum (gamma eq) (density q) (pressure q) M2 w Hg Hr P W2). fold rc pc in SM.
  unfold rankine_hugoniot. rewrite E1, E2, E3, !sprod_scale_l. unfold unit_vector in Hn. rewrite Hn.
  intros [A [B _]].
  replace ((s + w / rc) * 1 - s) with (w / rc) in A, B by ring.
  set (a := sprod (velocity_of q) n - s) in *.
  assert (AW : a = w).
  { apply Rmult_eq_reg_l with (density q); [|lra]. rewrite <- A. field. lra. }
  apply vscale_ext.
  - unfold velocity_of. rewrite map_length. exact HL.
  - intros i Hi. specialize (B i Hi). rewrite nth_vscale in B. rewrite AW in B.
    apply Rmult_eq_reg_l with (density q * w); [|apply Rmult_integral_contrapositive_currified; lra].
    assert (K : k = s + w) by (unfold w; ring). clearbody w pc rc. rewrite K.
    assert (D : density q * rc * (w / rc) * ((s + w / rc) * nth i n 0) =
                density q * w * ((s + w) * nth i n 0) + density q * (w * w) * (1 / rc - 1) * nth i n 0) by (field; lra).
    rewrite D, SM in B. lra.
Qed.

Lemma shock_compression : forall (eq : gas) (q : Complete) M_S n,
  1 < gamma eq -> 0 < density q -> 0 < pressure q -> 0 < speed_of_sound q ->
  speed_of_sound q * speed_of_sound q = gamma eq * pressure q / density q ->
  M_S <> Machnumber q ->
  let pre := ComputePreShockState eq q M_S n in
  let M2 := (Machnumber q - M_S) * (Machnumber q - M_S) in
  (density q < density pre <-> 1 < M2) /\ (pressure q < pressure pre <-> 1 < M2) /\
  (0 < pressure pre <-> (gamma eq - 1) / (2 * gamma eq) < M2).
Proof.
  intros eq q M_S n Hg Hr Hp Hc Hc2 HM pre.
  destruct (pre_state eq q M_S n Hg Hr Hp Hc Hc2 HM) as [P [W0 [W2 [E1 [E2 E3]]]]].
  fold pre in E1, E2, E3. rewrite E1, E2.
  set (M2 := (Machnumber q - M_S) * (Machnumber q - M_S)) in *. cbv zeta.
  assert (D := den_pos (gamma eq) M2 Hg P).
  set (g := gamma eq) in *. clearbody M2 g.
  assert (R1 : density q * ((g + 1) * M2 / ((g - 1) * M2 + 2)) - density q = density q * (2 * (M2 - 1) / ((g - 1) * M2 + 2))) by (field; lra).
  assert (R2 : pressure q * ((2 * g * M2 - (g - 1)) / (g + 1)) - pressure q = pressure q * (2 * g * (M2 - 1) / (g + 1))) by (field; lra).
  assert (S1 : forall x y, 0 < x -> (0 < x * y <-> 0 < y)).
  { intros x y Hx. split; intro H; [|apply Rmult_lt_0_compat; assumption].
    apply Rmult_lt_reg_l with x; [exact Hx|]. lra. }
  assert (S2 : forall x y, 0 < y -> (0 < x / y <-> 0 < x)).
  { intros x y Hy. split; intro H; [|apply Rdiv_lt_0_compat; assumption].
    replace x with (x / y * y) by (field; lra). apply Rmult_lt_0_compat; assumption. }
  assert (T : forall x y, x < y <-> 0 < y - x) by (intros x y; split; lra).
  split; [|split].
  - rewrite T, R1, (S1 _ _ Hr), (S2 _ _ D). split; lra.
  - assert (G1 : 0 < g + 1) by lra. assert (G2 : 0 < 2 * g) by lra.
    rewrite T, R2, (S1 _ _ Hp), (S2 _ _ G1), (S1 _ _ G2). split; lra.
  - assert (G1 : 0 < g + 1) by lra. assert (G2 : 0 < 2 * g) by lra.
    assert (X : 2 * g * M2 - (g - 1) = 2 * g * (M2 - (g - 1) / (2 * g))) by (field; lra).
    rewrite (S1 _ _ Hp), (S2 _ _ G1), X, (S1 _ _ G2). split; lra.
Qed.
