(** Boundary states that expand to a pressure or to a Mach number, lemmas for C93 and C94. *)
From Coq Require Import List Reals Bool Lra Lia.
From Verif Require Import GasModel ExpansionModel ExpansionSpec ExpansionProofs ExpansionProofs2.
Import ListNotations.
Local Open Scope R_scope.

(** the gas at rest with the pressure of the state q *)
Section Rest.
Variables (g : R) (q : mix) (pn : R).
Hypothesis Hg : 1 < g.
Hypothesis Hr : 0 < x_density q.
Hypothesis Hp : 0 < x_pressure q.
Hypothesis Hc : x_speed_of_sound q * x_speed_of_sound q = g * x_pressure q / x_density q.
Hypothesis Hm : x_momentum q <> [].
Hypothesis Hn : 0 < pn.
Hypothesis HE : x_energy q = total_energy g (x_density q) (velocity_x q) (x_pressure q).
Let rn := iso g (x_density q) (x_pressure q) pn.
Let dh := enthalpy g (x_density q) (x_pressure q) - enthalpy g rn pn.
Let rest e := mkMix (x_density q) (zeros (x_momentum q)) e (x_species q) (x_pressure q) (x_speed_of_sound q).

Lemma rest_sip : forall e, pn < x_pressure q ->
  SetIsentropicPressure g (rest e) pn =
  mkMix rn (vscale rn (set_first (sqrt (2 * dh)) (zeros (x_momentum q)))) (pn / (g - 1) + rn * dh) (x_species q) pn (sqrt (g * pn / rn)).
Proof.
  intros e H. rewrite (sip_eq g (rest e) pn Hg Hr Hp Hc Hn). unfold velocity_x, rest. cbn [x_density x_momentum x_pressure x_species].
  rewrite !zeros_div, zeros_zeros. fold rn. unfold mach_squared. rewrite sprod_zeros.
  assert (Z := temperature_lt g _ _ _ Hg Hr Hp Hn H). fold rn in Z.
  replace (1 + (g - 1) / 2 * (0 / (g * x_pressure q / x_density q))) with 1.
  2:{ field. repeat split; lra. }
  replace (2 * (g / (g - 1)) * (x_pressure q / x_density q * 1 - pn / rn)) with (2 * dh).
  2:{ unfold dh, enthalpy. ring. }
  assert (D : 0 < dh).
  { unfold dh, enthalpy. rewrite <- Rmult_minus_distr_l. apply Rmult_lt_0_compat; [apply Rdiv_lt_0_compat|]; lra. }
  rewrite sgn_pos by lra. rewrite Rabs_pos_eq by lra. rewrite Rmult_1_l. cbv zeta. f_equal.
  unfold total_energy. rewrite first_zeros by exact Hm. rewrite sqrt_sqrt by lra. field. lra.
Qed.

Lemma dh_pos : pn < x_pressure q -> 0 < dh.
Proof.
  intro H. assert (Z := temperature_lt g _ _ _ Hg Hr Hp Hn H). fold rn in Z.
  unfold dh, enthalpy. rewrite <- Rmult_minus_distr_l. apply Rmult_lt_0_compat; [apply Rdiv_lt_0_compat|]; lra.
Qed.

Lemma rn_pos : 0 < rn.
Proof. apply iso_pos. exact Hr. Qed.

(** the code's h_before and h_after *)
Lemma rest_enthalpy : (x_pressure q / (g - 1) + x_pressure q) / x_density q = enthalpy g (x_density q) (x_pressure q).
Proof. unfold enthalpy. field. lra. Qed.
Lemma after_enthalpy : (pn / (g - 1) + rn * dh + pn) / rn = enthalpy g (x_density q) (x_pressure q).
Proof. assert (R := rn_pos). unfold dh, enthalpy. field. lra. Qed.

Lemma kin_q : x_energy q - KineticEnergy (x_density q) (x_momentum q) = x_pressure q / (g - 1).
Proof.
  rewrite HE, kinetic_velocity by lra. unfold total_energy, velocity_x. ring.
Qed.

Lemma expansion_eq : forall eta, pn < x_pressure q ->
  let v := set_first (norm (velocity_x q)) (zeros (x_momentum q)) in
  IsentropicExpansion g q pn eta =
  mkMix rn (vscale rn v) (total_energy g rn v pn + rn * dh) (x_species q) pn (sqrt (g * pn / rn)).
Proof.
  intros eta H v. unfold IsentropicExpansion. fold (rest (x_energy q - KineticEnergy (x_density q) (x_momentum q))).
  cbv zeta. rewrite rest_sip by exact H. unfold rest. cbn [x_density x_momentum x_pressure x_species x_energy x_speed_of_sound].
  rewrite kin_q, rest_enthalpy, after_enthalpy. rewrite Rminus_eq_0.
  unfold sgn_ge. destruct (Rlt_dec 0 0) as [N|_]; [lra|]. rewrite Rabs_R0.
  replace (2 * eta * 0 + squaredNorm (map (fun m => m / x_density q) (x_momentum q))) with (squaredNorm (velocity_x q)).
  2:{ unfold velocity_x. ring. }
  fold (norm (velocity_x q)). rewrite Rmult_1_l. rewrite set_first_scale0. fold v.
  assert (R := rn_pos). rewrite kinetic_scaled by lra. f_equal. unfold total_energy. ring.
Qed.

Lemma set_velocity_vel : forall (a : mix) w, 0 < x_density a ->
  x_energy a = total_energy g (x_density a) (velocity_x a) (x_pressure a) ->
  SetVelocity a w = mkMix (x_density a) (vscale (x_density a) w) (total_energy g (x_density a) w (x_pressure a)) (x_species a) (x_pressure a) (x_speed_of_sound a).
Proof.
  intros a w Ha He. unfold SetVelocity. f_equal. rewrite kinetic_scaled by lra. rewrite (kinetic_velocity (x_density a) (x_momentum a)) by lra.
  fold (velocity_x a). rewrite He. unfold total_energy. ring.
Qed.

Lemma expand_eq : forall eta, pn < x_pressure q ->
  let v := set_first (Rabs (nth 0 (velocity_x q) 0)) (velocity_x q) in
  ExpandState g q pn eta =
  mkMix rn (vscale rn v) (total_energy g rn v pn) (x_species q) pn (sqrt (g * pn / rn)).
Proof.
  intros eta H v. unfold ExpandState. fold (velocity_x q). cbv zeta.
  rewrite (set_velocity_vel q _ Hr HE). rewrite zeros_scale.
  assert (ZV : zeros (velocity_x q) = zeros (x_momentum q)) by (unfold velocity_x; apply zeros_map).
  assert (Z : forall w, sprod (zeros w) (zeros w) = 0) by apply sprod_zeros.
  assert (T : total_energy g (x_density q) (zeros (velocity_x q)) (x_pressure q) = x_pressure q / (g - 1)).
  { unfold total_energy. rewrite Z. field. lra. }
  rewrite T, ZV. fold (rest (x_pressure q / (g - 1))). rewrite rest_sip by exact H.
  assert (R := rn_pos). assert (D := dh_pos H).
  unfold TotalEnthalpy, rest. cbn [x_density x_momentum x_pressure x_species x_energy x_speed_of_sound].
  rewrite rest_enthalpy, after_enthalpy, Rminus_eq_0.
  replace (eta * 0 * 2 + nth 0 (velocity_x q) 0 * nth 0 (velocity_x q) 0) with (Rsqr (nth 0 (velocity_x q) 0)) by (unfold Rsqr; ring).
  unfold sgn_ge. generalize (Rle_0_sqr (nth 0 (velocity_x q) 0)); intro SQ.
  destruct (Rlt_dec (Rsqr (nth 0 (velocity_x q) 0)) 0) as [N|_]; [lra|].
  rewrite Rabs_pos_eq by exact SQ. rewrite sqrt_Rsqr_abs, Rmult_1_l. fold v.
  rewrite set_velocity_vel.
  - reflexivity.
  - exact R.
  - cbn [x_energy x_density x_pressure]. unfold velocity_x. cbn [x_density x_momentum]. rewrite vscale_div by lra.
    unfold total_energy. rewrite first_zeros by exact Hm. rewrite sqrt_sqrt by lra. field. lra.
Qed.

Lemma sprod_abs_first : forall w : list R, sprod (set_first (Rabs (nth 0 w 0)) w) (set_first (Rabs (nth 0 w 0)) w) = sprod w w.
Proof.
  intros [|x w]; [reflexivity|]. cbn [set_first nth sprod]. f_equal.
  generalize (Rsqr_abs x). unfold Rsqr. intro E. symmetry. exact E.
Qed.
End Rest.

(** ** mixture with the reactor *)
Lemma border_outflow : forall eta u hb ha, 0 <= eta -> 0 <= u -> ha < hb ->
  0 <= border_velocity eta u hb ha /\
  border_velocity eta u hb ha * border_velocity eta u hb ha = u * u + 2 * eta * (hb - ha).
Proof.
  intros eta u hb ha He Hu Hd.
  assert (D : 0 < hb - ha) by lra. assert (ED : 0 <= eta * (hb - ha)) by (apply Rmult_le_pos; lra).
  assert (UU : 0 <= u * u) by (apply Rmult_le_pos; lra).
  unfold border_velocity. rewrite (sgn_pos (hb - ha)) by exact D. rewrite (Rabs_pos_eq (hb - ha)) by lra.
  destruct (Req_EM_T (sgn u) 1) as [E|N].
  - rewrite Rmult_1_l. split; [apply sqrt_pos|]. rewrite sqrt_sqrt by lra. ring.
  - assert (U0 : u = 0) by (destruct (Rle_lt_or_eq_dec 0 u Hu) as [P|P]; [rewrite sgn_pos in N by exact P; lra | lra]).
    subst u. destruct (Rlt_dec 0 (eta * (hb - ha) * 2 - 0 * 0)) as [P|P].
    + rewrite Rmult_1_l. split; [apply sqrt_pos|]. rewrite sqrt_sqrt by apply Rabs_pos. rewrite Rabs_pos_eq by lra. ring.
    + replace (eta * (hb - ha) * 2 - 0 * 0) with 0 by lra. rewrite sgn_zero. split; lra.
Qed.

Lemma border_equal : forall eta u h, 0 < u -> border_velocity eta u h h = - u.
Proof.
  intros eta u h Hu. unfold border_velocity. rewrite Rminus_eq_0, sgn_zero, sgn_pos by exact Hu.
  destruct (Req_EM_T 1 0) as [E|_]; [lra|]. rewrite Rabs_R0.
  assert (UU : 0 < u * u) by (apply Rmult_lt_0_compat; assumption).
  replace (eta * 0 * 2 - u * u) with (- (u * u)) by ring.
  destruct (Rlt_dec 0 (- (u * u))) as [P|_]; [lra|].
  rewrite sgn_neg by lra. rewrite Rabs_Ropp, Rabs_pos_eq by lra. rewrite sqrt_square by lra. ring.
Qed.

Lemma border_compression : forall eta u hb ha, 0 <= eta -> 0 < u -> hb < ha -> border_velocity eta u hb ha <= 0.
Proof.
  intros eta u hb ha He Hu Hd. unfold border_velocity. rewrite (sgn_neg (hb - ha)) by lra. rewrite (sgn_pos u) by exact Hu.
  destruct (Req_EM_T 1 (-1)) as [E|_]; [lra|].
  set (i := eta * Rabs (hb - ha) * 2 - u * u). generalize (sqrt_pos (Rabs i)); intro Q.
  destruct (Rlt_dec 0 i) as [P|P]; [lra|].
  unfold sgn. destruct (Rlt_dec 0 i) as [P'|_]; [lra|]. destruct (Rlt_dec i 0); lra.
Qed.

Lemma border_lower : forall eta u hb ha, 0 <= eta -> u < 0 -> ha < hb ->
  border_velocity eta u hb ha * border_velocity eta u hb ha = Rabs (2 * eta * (hb - ha) - u * u) /\
  (u * u < 2 * eta * (hb - ha) -> 0 < border_velocity eta u hb ha).
Proof.
  intros eta u hb ha He Hu Hd. unfold border_velocity. rewrite (sgn_pos (hb - ha)) by lra. rewrite (sgn_neg u) by exact Hu.
  destruct (Req_EM_T (-1) 1) as [E|_]; [lra|]. rewrite (Rabs_pos_eq (hb - ha)) by lra.
  replace (eta * (hb - ha) * 2 - u * u) with (2 * eta * (hb - ha) - u * u) by ring.
  set (i := 2 * eta * (hb - ha) - u * u). destruct (Rlt_dec 0 i) as [P|P].
  - rewrite Rmult_1_l. split; [apply sqrt_sqrt; apply Rabs_pos|]. intros _. apply sqrt_lt_R0. apply Rabs_pos_lt. lra.
  - split; [apply sgn_sqrt_sqr|]. intro C. unfold i in P. lra.
Qed.

(** ** perfect gas *)
Lemma perfect_gas_density : forall g rho p pn R0, 1 < g -> 0 < rho -> 0 < p -> 0 < pn -> 0 < R0 ->
  pn / (Rpower (pn / p) ((g - 1) / g) * (p / rho / R0)) / R0 = iso g rho p pn.
Proof.
  intros g rho p pn R0 Hg Hr Hp Hn H0.
  assert (T := iso_temperature g rho p pn Hg Hr Hp Hn). assert (I := iso_pos g rho p pn Hr).
  assert (P := Rpower_pos (pn / p) ((g - 1) / g)).
  replace (pn / (Rpower (pn / p) ((g - 1) / g) * (p / rho / R0)) / R0) with (pn / (p / rho * Rpower (pn / p) ((g - 1) / g))).
  2:{ field. repeat split; lra. }
  rewrite <- T. field. lra.
Qed.

(** ** Mach number *)
Lemma laval : forall g m, 1 < g ->
  1 - (g - 1) / (g + 1) * (m * m * (g + 1) / (m * m * (g - 1) + 2)) = / (1 + (g - 1) / 2 * (m * m)).
Proof.
  intros g m Hg. assert (0 <= m * m) by (generalize (Rle_0_sqr m); unfold Rsqr; lra).
  assert (0 <= m * m * (g - 1)) by (apply Rmult_le_pos; lra). field. repeat split; lra.
Qed.
