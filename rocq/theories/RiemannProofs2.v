(** Lemmas for C75-C78: shocks and rarefactions at one side. *)
From Coq Require Import List Reals Lia Lra Psatz Bool.
From Verif Require Import GasModel GasSpec GasProofs NewtonModel RiemannModel RiemannSpec RiemannProofs.
Import ListNotations.
Local Open Scope R_scope.

(** ** Entropy *)

Lemma entropy_prim g q : 0 < density q -> 0 < pressure q ->
  entropy g q = density q * (ln (pressure q) - gamma g * ln (density q)).
Proof.
  intros Hr Hp. unfold entropy, Rpower, Rdiv. rewrite ln_mult by (auto; apply Rinv_0_lt_compat, exp_pos).
  rewrite ln_Rinv by apply exp_pos. rewrite ln_exp. ring.
Qed.

Lemma derivable_ln_affine a b x : 0 < a * x + b -> derivable_pt_lim (fun y => ln (a * y + b)) x (a / (a * x + b)).
Proof.
  intros H. replace (a / (a * x + b)) with (/ (a * x + b) * (a * 1 + 0)) by (unfold Rdiv; ring).
  apply (derivable_pt_lim_comp (fun y => a * y + b) ln).
  - apply (derivable_pt_lim_plus (fun y => a * y) (fun _ => b)); [|apply derivable_pt_lim_const].
    apply (derivable_pt_lim_scal id a). apply derivable_pt_lim_id.
  - apply derivable_pt_lim_ln. exact H.
Qed.

(** Entropy grows over a compressive shock. *)
Lemma shock_entropy gam r : 1 < gam -> 1 < r ->
  gam * (ln (r + (gam - 1) / (gam + 1)) - ln ((gam - 1) / (gam + 1) * r + 1)) <= ln r.
Proof.
  intros G Hr. set (mu := (gam - 1) / (gam + 1)).
  assert (0 < mu) as Hmu by (apply Rdiv_lt_0_compat; lra).
  set (f := fun y => ln (1 * y + 0) - gam * (ln (1 * y + mu) - ln (mu * y + 1))).
  set (f' := fun y => 1 / (1 * y + 0) - gam * (1 / (1 * y + mu) - mu / (mu * y + 1))).
  assert (forall y, 1 <= y <= r -> derivable_pt_lim f y (f' y)) as D.
  { intros y [Hy _]. unfold f, f'.
    apply (derivable_pt_lim_minus (fun y => ln (1 * y + 0)) (fun y => gam * (ln (1 * y + mu) - ln (mu * y + 1)))).
    - apply derivable_ln_affine. lra.
    - apply (derivable_pt_lim_scal (fun y => ln (1 * y + mu) - ln (mu * y + 1)) gam).
      apply (derivable_pt_lim_minus (fun y => ln (1 * y + mu)) (fun y => ln (mu * y + 1))); apply derivable_ln_affine; nra. }
  destruct (MVT_cor2 f f' 1 r Hr D) as (c & E & Hc).
  assert (0 <= f' c) as Hf.
  { unfold f'. assert (0 < mu * c) by (apply Rmult_lt_0_compat; lra).
    replace (1 / (1 * c + 0) - gam * (1 / (1 * c + mu) - mu / (mu * c + 1)))
      with (((c + mu) * (mu * c + 1) - gam * (1 - mu * mu) * c) / (c * (c + mu) * (mu * c + 1))) by (field; repeat split; lra).
    replace ((c + mu) * (mu * c + 1) - gam * (1 - mu * mu) * c) with (mu * ((c - 1) * (c - 1))) by (unfold mu; field; lra).
    apply Rmult_le_pos; [apply Rmult_le_pos; [lra | apply Rle_0_sqr]|].
    apply Rlt_le, Rinv_0_lt_compat. repeat apply Rmult_lt_0_compat; lra. }
  assert (0 <= f r - f 1) as H by (rewrite E; apply Rmult_le_pos; lra).
  unfold f in H. rewrite !Rmult_1_l, !Rmult_1_r, !Rplus_0_r, ln_1 in H.
  replace (1 + mu) with (mu + 1) in H by ring. lra.
Qed.

(** ** Powers *)

Lemma Rpower_pos x y : 0 < Rpower x y.
Proof. apply exp_pos. Qed.

Lemma Rpower_base_1 y : Rpower 1 y = 1.
Proof. unfold Rpower. rewrite ln_1, Rmult_0_r. apply exp_0. Qed.

Lemma Rpower_pred x y : 0 < x -> Rpower x (y - 1) = Rpower x y / x.
Proof. intros H. unfold Rminus. rewrite Rpower_plus, Rpower_Ropp, Rpower_1 by exact H. reflexivity. Qed.

Lemma Rpower_plus_2 x y : 0 < x -> Rpower x (y + 2) = Rpower x y * (x * x).
Proof.
  intros H. replace (y + 2) with (y + (1 + 1)) by ring. rewrite !Rpower_plus, Rpower_1 by exact H. reflexivity.
Qed.

Lemma derivable_power_affine c y k x : 0 < c x -> derivable_pt_lim c x k ->
  derivable_pt_lim (fun t => Rpower (c t) y) x (y * (Rpower (c x) y / c x) * k).
Proof.
  intros H D. rewrite <- Rpower_pred by exact H.
  apply (derivable_pt_lim_comp c (fun t => Rpower t y)); [exact D|]. apply derivable_pt_lim_power. exact H.
Qed.

(** ** The wave between a side and the middle state *)

(** f_left and f_right of the code for positive pressures *)
Definition phi (g : gas) (q : Complete) (p : R) : R :=
  if Rlt_dec (pressure q) p
  then (p - pressure q) * sqrt (2 / ((gamma g + 1) * density q) / (p + (gamma g - 1) / (gamma g + 1) * pressure q))
  else 2 * speed_of_sound q / (gamma g - 1) * (Rpower (p / pressure q) ((gamma g - 1) / (2 * gamma g)) - 1).

Lemma f_side_phi g q p : perfect g -> admissible g q -> 0 < p -> f_side g q p = Fin (phi g q p).
Proof.
  intros [G _] (Hr & Hp & _) H. unfold f_side, phi. cbv zeta. destruct (Rlt_dec (pressure q) p) as [L | L].
  - unfold dsqrt. destruct (Rlt_dec _ 0) as [N | N]; [exfalso|reflexivity].
    apply Rlt_not_le in N. apply N. apply Rlt_le. apply Rdiv_lt_0_compat.
    + apply Rdiv_lt_0_compat; [lra|]. apply Rmult_lt_0_compat; lra.
    + assert (0 < (gamma g - 1) / (gamma g + 1) * pressure q); [|lra].
      apply Rmult_lt_0_compat; [apply Rdiv_lt_0_compat; lra | exact Hp].
  - unfold dpow. destruct (Rlt_dec 0 (p / pressure q)) as [P | P].
    + cbn [dadd dscale]. replace (1 / 2 * (gamma g - 1) / gamma g) with ((gamma g - 1) / (2 * gamma g)) by (field; lra).
      reflexivity.
    + exfalso. apply P. apply Rdiv_lt_0_compat; lra.
Qed.

Section Side.
Variables (g : gas) (q : Complete) (d : nat) (s : R).
Hypothesis Hg : perfect g.
Hypothesis Hq : admissible g q.
Hypothesis Hd : (d < length (momentum q))%nat.
Hypothesis Hs : s = 1 \/ s = -1.

Let ga := gamma g.
Let rho0 := density q.
Let p0 := pressure q.
Let a0 := speed_of_sound q.
Let u0 := velocity q d.

Lemma side_facts : 1 < ga /\ 0 < rho0 /\ 0 < p0 /\ 0 < a0 /\ rho0 * (a0 * a0) = ga * p0.
Proof.
  pose proof Hg as [G _]. pose proof Hq as (Hr & Hp & _ & Ha & He). repeat split; auto.
  apply (sound_positive g); auto.
Qed.

(** *** Shocks *)

(** the mass that passes the shock per time *)
Definition massflow (pM : R) : R := sqrt (rho0 * ((ga + 1) * pM + (ga - 1) * p0) / 2).

Lemma massflow_spec pM : 0 < pM -> 0 < massflow pM /\ massflow pM * massflow pM = rho0 * ((ga + 1) * pM + (ga - 1) * p0) / 2.
Proof.
  intros H. destruct side_facts as (G & Hr & Hp & Ha & He).
  assert (0 < rho0 * ((ga + 1) * pM + (ga - 1) * p0) / 2) as P.
  { apply Rmult_lt_0_compat; [|lra]. apply Rmult_lt_0_compat; [exact Hr|].
    assert (0 < (ga + 1) * pM) by (apply Rmult_lt_0_compat; lra). assert (0 < (ga - 1) * p0) by (apply Rmult_lt_0_compat; lra). lra. }
  split; [apply sqrt_lt_R0; exact P|]. apply sqrt_sqrt. lra.
Qed.

Lemma phi_shock pM : p0 < pM -> phi g q pM = (pM - p0) / massflow pM.
Proof.
  intros H. destruct side_facts as (G & Hr & Hp & Ha & He).
  destruct (massflow_spec pM) as [J JJ]; [lra|]. unfold phi. fold p0 rho0 ga.
  destruct (Rlt_dec p0 pM) as [_|N]; [|lra].
  replace ((pM - p0) / massflow pM) with ((pM - p0) * / massflow pM) by reflexivity. f_equal.
  assert (0 < (ga + 1) * pM) by (apply Rmult_lt_0_compat; lra). assert (0 < (ga - 1) * p0) by (apply Rmult_lt_0_compat; lra).
  replace (2 / ((ga + 1) * rho0) / (pM + (ga - 1) / (ga + 1) * p0)) with (/ (rho0 * ((ga + 1) * pM + (ga - 1) * p0) / 2))
    by (field; repeat split; try lra; nra).
  rewrite <- JJ. rewrite Rinv_mult. apply sqrt_square. apply Rlt_le, Rinv_0_lt_compat. exact J.
Qed.

Lemma distance_shock pM : p0 < pM -> signal_distance g q pM = massflow pM / rho0.
Proof.
  intros H. destruct side_facts as (G & Hr & Hp & Ha & He).
  destruct (massflow_spec pM) as [J JJ]; [lra|]. unfold signal_distance. fold p0 a0 ga. cbv zeta.
  destruct (Rlt_dec p0 pM) as [_|N]; [|lra].
  assert (0 < (ga + 1) * pM) by (apply Rmult_lt_0_compat; lra). assert (0 < (ga - 1) * p0) by (apply Rmult_lt_0_compat; lra).
  assert (sqrt (((ga + 1) * (pM / p0) + (ga - 1)) / (2 * ga)) = massflow pM / (rho0 * a0)) as ->; [|field; lra].
  replace (((ga + 1) * (pM / p0) + (ga - 1)) / (2 * ga)) with ((massflow pM / (rho0 * a0)) * (massflow pM / (rho0 * a0))).
  - apply sqrt_square. apply Rlt_le. apply Rdiv_lt_0_compat; [exact J|]. apply Rmult_lt_0_compat; lra.
  - replace ((massflow pM / (rho0 * a0)) * (massflow pM / (rho0 * a0)))
      with ((massflow pM * massflow pM) / (rho0 * (rho0 * (a0 * a0)))) by (field; lra).
    rewrite JJ, He. field. repeat split; lra.
Qed.

(** the density behind the shock *)
Definition shock_density (pM : R) : R := rho0 * (pM / p0 + (ga - 1) / (ga + 1)) / ((ga - 1) / (ga + 1) * (pM / p0) + 1).

Lemma shock_density_alt pM : p0 < pM ->
  shock_density pM = rho0 * ((ga + 1) * pM + (ga - 1) * p0) / ((ga - 1) * pM + (ga + 1) * p0) /\ 0 < shock_density pM.
Proof.
  intros H. destruct side_facts as (G & Hr & Hp & Ha & He).
  assert (0 < (ga + 1) * pM) by (apply Rmult_lt_0_compat; lra). assert (0 < (ga - 1) * p0) by (apply Rmult_lt_0_compat; lra).
  assert (0 < (ga - 1) * pM) by (apply Rmult_lt_0_compat; lra). assert (0 < (ga + 1) * p0) by (apply Rmult_lt_0_compat; lra).
  assert (shock_density pM = rho0 * ((ga + 1) * pM + (ga - 1) * p0) / ((ga - 1) * pM + (ga + 1) * p0)) as E
    by (unfold shock_density; field; repeat split; lra).
  split; [exact E|]. rewrite E. apply Rdiv_lt_0_compat; [|lra]. apply Rmult_lt_0_compat; lra.
Qed.

(** The shock and its speed relative to the states on both sides. *)
Lemma shock_relative pM uM : p0 < pM -> uM = u0 - s * phi g q pM ->
  let S := u0 - s * signal_distance g q pM in
  rho0 * (u0 - S) = s * massflow pM /\ shock_density pM * (uM - S) = s * massflow pM /\
  pM - p0 = s * massflow pM * (u0 - uM).
Proof.
  intros H Hu S. destruct side_facts as (G & Hr & Hp & Ha & He).
  destruct (massflow_spec pM) as [J JJ]; [lra|]. unfold S. rewrite distance_shock by exact H.
  rewrite phi_shock in Hu by exact H. destruct (shock_density_alt pM H) as [-> _].
  assert (0 < (ga + 1) * pM) by (apply Rmult_lt_0_compat; lra). assert (0 < (ga - 1) * p0) by (apply Rmult_lt_0_compat; lra).
  assert (0 < (ga - 1) * pM) by (apply Rmult_lt_0_compat; lra). assert (0 < (ga + 1) * p0) by (apply Rmult_lt_0_compat; lra).
  set (j := massflow pM) in *. clearbody j. repeat split.
  - field. lra.
  - replace (uM - (u0 - s * (j / rho0))) with (s * ((j * j - rho0 * (pM - p0)) / (rho0 * j))) by (rewrite Hu; field; lra).
    rewrite JJ. replace (rho0 * ((ga + 1) * pM + (ga - 1) * p0) / 2 - rho0 * (pM - p0))
      with (rho0 * ((ga - 1) * pM + (ga + 1) * p0) / 2) by field.
    replace (rho0 * ((ga + 1) * pM + (ga - 1) * p0) / ((ga - 1) * pM + (ga + 1) * p0) *
             (s * (rho0 * ((ga - 1) * pM + (ga + 1) * p0) / 2 / (rho0 * j))))
      with (s * (rho0 * ((ga + 1) * pM + (ga - 1) * p0) / 2) / j) by (field; lra).
    rewrite <- JJ. field. lra.
  - rewrite Hu. destruct Hs as [-> | ->]; field; lra.
Qed.

Lemma shock_jump pM uM : p0 < pM -> uM = u0 - s * phi g q pM ->
  forall c, transport c (shocked g q d pM uM) d - transport c q d =
            (u0 - s * signal_distance g q pM) * (amount c (shocked g q d pM uM) - amount c q).
Proof.
  intros H Hu c. destruct side_facts as (G & Hr & Hp & Ha & He).
  destruct (massflow_spec pM) as [J JJ]; [lra|].
  destruct (shock_relative pM uM H Hu) as (E1 & E2 & E3). cbv zeta in E1, E2, E3.
  set (S := u0 - s * signal_distance g q pM) in *.
  destruct (shock_density_alt pM H) as [Ed Pd].
  assert (shocked g q d pM uM = from_prim g (shock_density pM) uM pM q d) as -> by reflexivity.
  pose proof (prim_self g q d Hg Hd Hq) as Q. fold rho0 u0 p0 in Q.
  assert (transport c q d = transport c (from_prim g rho0 u0 p0 q d) d) as -> by (rewrite Q; reflexivity).
  assert (amount c q = amount c (from_prim g rho0 u0 p0 q d)) as -> by (rewrite Q; reflexivity).
  assert (0 < (ga + 1) * pM) by (apply Rmult_lt_0_compat; lra). assert (0 < (ga - 1) * p0) by (apply Rmult_lt_0_compat; lra).
  assert (0 < (ga - 1) * pM) by (apply Rmult_lt_0_compat; lra). assert (0 < (ga + 1) * p0) by (apply Rmult_lt_0_compat; lra).
  set (j := massflow pM) in *. clearbody j. clearbody S.
  apply jump_conditions; auto; try lra.
  - rewrite E1. exact E3.
  - rewrite E1. fold ga.
    assert (pM / shock_density pM = pM * ((ga - 1) * pM + (ga + 1) * p0) / (rho0 * ((ga + 1) * pM + (ga - 1) * p0))) as ->
      by (rewrite Ed; field; repeat split; lra).
    set (D := (ga + 1) * pM + (ga - 1) * p0) in *.
    assert (s * s = 1) as Hss by (destruct Hs as [-> | ->]; ring).
    assert (u0 - uM = s * ((pM - p0) / j)) as Eu.
    { rewrite E3. replace (s * (s * j * (u0 - uM) / j)) with ((s * s) * (u0 - uM)) by (field; lra). rewrite Hss. ring. }
    replace uM with (u0 - s * ((pM - p0) / j)) by lra.
    replace (p0 / rho0 - pM * ((ga - 1) * pM + (ga + 1) * p0) / (rho0 * D)) with
      (- ((ga - 1) * (pM - p0) * (pM + p0)) / (rho0 * D)).
    2:{ unfold D. field. split; lra. }
    replace (rho0 * D) with (2 * (j * j)) by lra.
    apply Rminus_diag_uniq.
    match goal with |- ?l = 0 => replace l with ((s * s - 1) * ((pM - p0) * u0 * - (1)) + (s * s - 1) * s * ((pM - p0) * (pM - p0) / (2 * j))) by (field; repeat split; lra) end.
    rewrite Hss. ring.
Qed.

Lemma shocked_admissible pM uM : p0 < pM -> admissible g (shocked g q d pM uM).
Proof.
  intros H. destruct side_facts as (G & Hr & Hp & Ha & He).
  destruct (shock_density_alt pM H) as [_ Pd].
  apply (prim_admissible g q d Hg (shock_density pM) uM pM Pd). lra.
Qed.

Lemma shock_produces pM uM : p0 < pM -> uM = u0 - s * phi g q pM ->
  let S := u0 - s * signal_distance g q pM in
  0 <= s * ((entropy g (shocked g q d pM uM) * speed (shocked g q d pM uM) d - entropy g q * speed q d) -
            S * (entropy g (shocked g q d pM uM) - entropy g q)).
Proof.
  intros H Hu S. destruct side_facts as (G & Hr & Hp & Ha & He).
  destruct (massflow_spec pM) as [J JJ]; [lra|].
  destruct (shock_relative pM uM H Hu) as (E1 & E2 & E3). cbv zeta in E1, E2, E3. fold S in E1, E2, E3.
  destruct (shock_density_alt pM H) as [Ed Pd].
  assert (shocked g q d pM uM = from_prim g (shock_density pM) uM pM q d) as -> by reflexivity.
  rewrite (prim_speed g q d) by (auto; lra).
  rewrite !entropy_prim by (auto; cbn; lra). rewrite prim_density, prim_pressure.
  change (speed q d) with u0. fold rho0 p0 ga.
  set (s1 := ln pM - ga * ln (shock_density pM)). set (s0 := ln p0 - ga * ln rho0).
  replace (shock_density pM * s1 * uM - rho0 * s0 * u0 - S * (shock_density pM * s1 - rho0 * s0))
    with ((shock_density pM * (uM - S)) * s1 - (rho0 * (u0 - S)) * s0) by ring.
  rewrite E1, E2. replace (s * (s * massflow pM * s1 - s * massflow pM * s0)) with (s * s * massflow pM * (s1 - s0)) by ring.
  assert (s * s = 1) as -> by (destruct Hs as [-> | ->]; ring).
  assert (0 <= s1 - s0) as K; [|nra].
  pose proof (shock_entropy ga (pM / p0) G) as K.
  assert (1 < pM / p0) as Hp1 by (apply (Rmult_lt_reg_r p0); [exact Hp|]; unfold Rdiv; rewrite Rmult_assoc, Rinv_l; lra).
  specialize (K Hp1).
  assert (0 < (ga - 1) / (ga + 1)) as Hmu by (apply Rdiv_lt_0_compat; lra).
  set (mu := (ga - 1) / (ga + 1)) in *.
  assert (ln (pM / p0) = ln pM - ln p0) as L1.
  { unfold Rdiv. rewrite ln_mult, ln_Rinv by (try apply Rinv_0_lt_compat; lra). ring. }
  assert (ln (shock_density pM) = ln rho0 + ln (pM / p0 + mu) - ln (mu * (pM / p0) + 1)) as L2.
  { unfold shock_density. fold mu. assert (0 < mu * (pM / p0)) by (apply Rmult_lt_0_compat; lra).
    unfold Rdiv at 1. rewrite !ln_mult, ln_Rinv; try lra; try (apply Rinv_0_lt_compat; lra).
    apply Rmult_lt_0_compat; lra. }
  unfold s1, s0. rewrite L2. lra.
Qed.

(** *** Rarefactions *)

(** speed of sound inside of the fan, relative to the one of the side *)
Definition fan_ratio (x : R) : R := 2 / (ga + 1) + s * ((ga - 1) / (ga + 1) * (u0 - x) / a0).

(** the fan *)
Definition fan_velocity (x : R) : R := 2 / (ga + 1) * (s * a0 + 1 / 2 * (ga - 1) * u0 + x).
Definition fan_density (x : R) : R := rho0 * Rpower (fan_ratio x) (2 / (ga - 1)).
Definition fan_pressure (x : R) : R := p0 * Rpower (fan_ratio x) (2 * ga / (ga - 1)).
Definition fan (x : R) : Complete := from_prim g (fan_density x) (fan_velocity x) (fan_pressure x) q d.

Lemma fan_relative x : fan_velocity x - x = s * a0 * fan_ratio x.
Proof.
  destruct side_facts as (G & Hr & Hp & Ha & He). unfold fan_velocity, fan_ratio.
  destruct Hs as [-> | ->]; field; lra.
Qed.

Lemma fan_positive x : 0 < fan_density x /\ 0 < fan_pressure x.
Proof.
  destruct side_facts as (G & Hr & Hp & Ha & He).
  split; apply Rmult_lt_0_compat; auto; apply Rpower_pos.
Qed.

Lemma fan_admissible x : admissible g (fan x).
Proof. destruct (fan_positive x). apply prim_admissible; auto. Qed.

Lemma fan_smooth x : 0 < fan_ratio x -> conserved_at d fan x.
Proof.
  intros H. destruct side_facts as (G & Hr & Hp & Ha & He).
  set (k := - (s * ((ga - 1) / (ga + 1) / a0))).
  assert (derivable_pt_lim fan_ratio x k) as Dc.
  { assert (forall y, fan_ratio y = (2 / (ga + 1) + s * ((ga - 1) / (ga + 1) * u0 / a0)) + k * y) as E
      by (intros y; unfold fan_ratio, k; field; lra).
    assert (derivable_pt_lim (fun y => (2 / (ga + 1) + s * ((ga - 1) / (ga + 1) * u0 / a0)) + k * y) x (0 + k * 1)) as D.
    { apply (derivable_pt_lim_plus (fun _ => 2 / (ga + 1) + s * ((ga - 1) / (ga + 1) * u0 / a0)) (fun y => k * y));
        [apply derivable_pt_lim_const|]. apply (derivable_pt_lim_scal id k). apply derivable_pt_lim_id. }
    rewrite Rmult_1_r, Rplus_0_l in D. intros e He'. destruct (D e He') as [dl Hdl]. exists dl.
    intros h H1 H2. rewrite !E. apply Hdl; auto. }
  assert (derivable_pt_lim fan_velocity x (2 / (ga + 1))) as Du.
  { unfold fan_velocity. replace (2 / (ga + 1)) with (2 / (ga + 1) * (0 + 1)) at 1 by ring.
    apply (derivable_pt_lim_scal (fun x => s * a0 + 1 / 2 * (ga - 1) * u0 + x) (2 / (ga + 1))).
    apply (derivable_pt_lim_plus (fun _ => s * a0 + 1 / 2 * (ga - 1) * u0) id);
      [apply derivable_pt_lim_const | apply derivable_pt_lim_id]. }
  set (P := Rpower (fan_ratio x) (2 / (ga - 1))).
  assert (Rpower (fan_ratio x) (2 * ga / (ga - 1)) = P * (fan_ratio x * fan_ratio x)) as Q.
  { replace (2 * ga / (ga - 1)) with (2 / (ga - 1) + 2) by (field; lra). apply Rpower_plus_2. exact H. }
  apply (smooth_solution g q d Hg Hd fan_density fan_velocity fan_pressure x
           (rho0 * (2 / (ga - 1) * (P / fan_ratio x) * k)) (2 / (ga + 1))
           (p0 * (2 * ga / (ga - 1) * (P * (fan_ratio x * fan_ratio x) / fan_ratio x) * k))).
  - intros y. apply (fan_positive y).
  - apply (derivable_pt_lim_scal (fun y => Rpower (fan_ratio y) (2 / (ga - 1))) rho0).
    apply (derivable_power_affine fan_ratio); auto.
  - exact Du.
  - apply (derivable_pt_lim_scal (fun y => Rpower (fan_ratio y) (2 * ga / (ga - 1))) p0).
    rewrite <- Q. apply (derivable_power_affine fan_ratio); auto.
  - rewrite fan_relative. unfold fan_density. fold P. unfold k. destruct Hs as [-> | ->]; field; lra.
  - rewrite fan_relative. unfold fan_density. fold P. set (c := fan_ratio x) in *. clearbody c P.
    apply Rminus_diag_uniq. unfold k.
    match goal with |- ?l = 0 =>
      replace l with (s * (2 * P * c / ((ga + 1) * a0)) * (rho0 * (a0 * a0) - ga * p0)) by (field; lra) end.
    rewrite He. ring.
  - rewrite fan_relative. unfold fan_pressure. fold ga. rewrite Q. set (c := fan_ratio x) in *. clearbody c P.
    unfold k. destruct Hs as [-> | ->]; field; lra.
Qed.

Lemma fan_head : fan (u0 - s * a0) = q.
Proof.
  destruct side_facts as (G & Hr & Hp & Ha & He).
  assert (fan_ratio (u0 - s * a0) = 1) as E by (unfold fan_ratio; destruct Hs as [-> | ->]; field; lra).
  unfold fan, fan_density, fan_pressure. rewrite E, !Rpower_base_1, !Rmult_1_r.
  replace (fan_velocity (u0 - s * a0)) with u0.
  - apply (prim_self g q d Hg Hd Hq).
  - pose proof (fan_relative (u0 - s * a0)) as F. rewrite E in F. lra.
Qed.

(** the ratio of the speeds of sound over the rarefaction *)
Definition sound_ratio (pM : R) : R := Rpower (pM / p0) ((ga - 1) / (2 * ga)).

Lemma phi_rarefaction pM : pM <= p0 -> phi g q pM = 2 * a0 / (ga - 1) * (sound_ratio pM - 1).
Proof. intros H. unfold phi. fold p0 ga a0. destruct (Rlt_dec p0 pM); [lra|]. reflexivity. Qed.

Lemma sound_ratio_range pM : 0 < pM <= p0 -> 0 < sound_ratio pM <= 1 /\ (pM < p0 -> sound_ratio pM < 1).
Proof.
  intros H. destruct side_facts as (G & Hr & Hp & Ha & He). unfold sound_ratio.
  assert (0 < pM / p0) as P by (apply Rdiv_lt_0_compat; lra).
  assert (0 < (ga - 1) / (2 * ga)) as E by (apply Rdiv_lt_0_compat; lra).
  assert (pM < p0 -> Rpower (pM / p0) ((ga - 1) / (2 * ga)) < 1) as L.
  { intros L. assert (pM / p0 < 1) as L1 by (apply (Rmult_lt_reg_r p0); [exact Hp|]; unfold Rdiv; rewrite Rmult_assoc, Rinv_l; lra).
    rewrite <- (Rpower_base_1 ((ga - 1) / (2 * ga))) at 2. unfold Rpower. apply exp_increasing.
    apply Rmult_lt_compat_l; [exact E|]. apply ln_increasing; lra. }
  split; [|exact L]. split; [apply Rpower_pos|].
  destruct (Rlt_dec pM p0) as [l|n]; [left; auto|]. right. replace pM with p0 by lra.
  unfold Rdiv at 1. rewrite Rinv_r by lra. apply Rpower_base_1.
Qed.

Lemma tail_ratio pM uM : pM <= p0 -> uM = u0 - s * phi g q pM ->
  fan_ratio (uM - s * (a0 * sound_ratio pM)) = sound_ratio pM.
Proof.
  intros H Hu. destruct side_facts as (G & Hr & Hp & Ha & He). rewrite phi_rarefaction in Hu by exact H.
  rewrite Hu. unfold fan_ratio. destruct Hs as [-> | ->]; field; lra.
Qed.

Lemma fan_tail pM uM : 0 < pM <= p0 -> uM = u0 - s * phi g q pM ->
  fan (uM - s * (a0 * sound_ratio pM)) = rarefied g q d pM uM.
Proof.
  intros H Hu. destruct side_facts as (G & Hr & Hp & Ha & He).
  pose proof (tail_ratio pM uM (proj2 H) Hu) as E.
  assert (0 < pM / p0) as P by (apply Rdiv_lt_0_compat; lra).
  unfold fan, rarefied, fan_density, fan_pressure. rewrite E. fold rho0 p0 ga.
  replace (Rpower (sound_ratio pM) (2 / (ga - 1))) with (Rpower (pM / p0) (1 / ga)).
  2:{ unfold sound_ratio. rewrite Rpower_mult. f_equal. field. lra. }
  replace (Rpower (sound_ratio pM) (2 * ga / (ga - 1))) with (pM / p0).
  2:{ unfold sound_ratio. rewrite Rpower_mult.
      replace ((ga - 1) / (2 * ga) * (2 * ga / (ga - 1))) with 1 by (field; lra). rewrite Rpower_1; auto. }
  replace (p0 * (pM / p0)) with pM by (field; lra).
  replace (fan_velocity (uM - s * (a0 * sound_ratio pM))) with uM; [reflexivity|].
  pose proof (fan_relative (uM - s * (a0 * sound_ratio pM))) as F. rewrite E in F. lra.
Qed.

Lemma rarefied_admissible pM uM : 0 < pM -> admissible g (rarefied g q d pM uM).
Proof.
  intros H. destruct side_facts as (G & Hr & Hp & Ha & He). apply prim_admissible; auto.
  apply Rmult_lt_0_compat; [exact Hr | apply Rpower_pos].
Qed.

(** Between head and tail the ratio is positive. *)
Lemma fan_ratio_between pM uM x : 0 < pM <= p0 -> uM = u0 - s * phi g q pM ->
  s * x <= s * (uM - s * (a0 * sound_ratio pM)) -> sound_ratio pM <= fan_ratio x.
Proof.
  intros H Hu Hx. destruct side_facts as (G & Hr & Hp & Ha & He).
  rewrite <- (tail_ratio pM uM (proj2 H) Hu). set (t := uM - s * (a0 * sound_ratio pM)) in *. clearbody t.
  unfold fan_ratio. assert (0 < (ga - 1) / (ga + 1) / a0) as K by (repeat apply Rdiv_lt_0_compat; lra).
  replace ((ga - 1) / (ga + 1) * (u0 - t) / a0) with ((ga - 1) / (ga + 1) / a0 * (u0 - t)) by (field; lra).
  replace ((ga - 1) / (ga + 1) * (u0 - x) / a0) with ((ga - 1) / (ga + 1) / a0 * (u0 - x)) by (field; lra).
  set (K' := (ga - 1) / (ga + 1) / a0) in *. nra.
Qed.

(** The head is outside of the tail. *)
Lemma head_tail pM uM : 0 < pM <= p0 -> uM = u0 - s * phi g q pM ->
  s * (u0 - s * a0) <= s * (uM - s * (a0 * sound_ratio pM)) /\
  (pM < p0 -> s * (u0 - s * a0) < s * (uM - s * (a0 * sound_ratio pM))) /\
  s * (uM - s * (a0 * sound_ratio pM)) < s * uM.
Proof.
  intros H Hu. destruct side_facts as (G & Hr & Hp & Ha & He).
  destruct (sound_ratio_range pM H) as [[R1 R2] R3]. rewrite phi_rarefaction in Hu by lra.
  set (r := sound_ratio pM) in *. clearbody r.
  assert (0 < 2 * a0 / (ga - 1)) as K by (apply Rdiv_lt_0_compat; lra).
  assert (s * s = 1) as Hss by (destruct Hs as [-> | ->]; ring).
  replace (s * (u0 - s * a0)) with (s * u0 - s * s * a0) by ring.
  replace (s * (uM - s * (a0 * r))) with (s * uM - s * s * (a0 * r)) by ring.
  replace (s * uM) with (s * u0 + s * s * (2 * a0 / (ga - 1) * (1 - r))) by (rewrite Hu; ring).
  rewrite Hss, !Rmult_1_l. set (b := 2 * a0 / (ga - 1)) in *. clearbody b.
  assert (0 < a0 * r) by (apply Rmult_lt_0_compat; lra).
  split; [nra|]. split; [|lra]. intros L. specialize (R3 L). nra.
Qed.

Lemma shock_before pM uM : p0 < pM -> uM = u0 - s * phi g q pM ->
  s * (u0 - s * signal_distance g q pM) < s * uM.
Proof.
  intros H Hu. destruct (shock_relative pM uM H Hu) as (E1 & E2 & E3). cbv zeta in E1, E2, E3.
  destruct side_facts as (G & Hr & Hp & Ha & He).
  destruct (massflow_spec pM) as [J JJ]; [lra|]. destruct (shock_density_alt pM H) as [_ Pd].
  set (S := u0 - s * signal_distance g q pM) in *. clearbody S.
  assert (s * s = 1) as Hss by (destruct Hs as [-> | ->]; ring).
  assert (shock_density pM * (s * (uM - S)) = massflow pM) as E.
  { replace (shock_density pM * (s * (uM - S))) with (s * (shock_density pM * (uM - S))) by ring. rewrite E2.
    replace (s * (s * massflow pM)) with (s * s * massflow pM) by ring. rewrite Hss. ring. }
  assert (0 < s * (uM - S)) as P; [|lra].
  destruct (Rlt_dec 0 (s * (uM - S))) as [l|n]; [exact l|]. nra.
Qed.
End Side.
