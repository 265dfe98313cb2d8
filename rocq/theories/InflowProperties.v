(** C157: the mass flow boundary for embedded geometries. *)
From Coq Require Import List Reals Lra Lia Psatz Permutation.
From Verif Require Import InflowModel InflowSpec InflowProofs.
Import ListNotations.
Local Open Scope R_scope.

(** The inner state is the mean over the cells of all processes weighted with their volume fractions: it does not depend on the distribution over the
    processes, lies between the bounds of the cells with fluid, and covered cells do not count. *)
Theorem C157_average : forall processes comp,
  let volume_and_value := map (fun c : R * list R => (fst c, nth comp (snd c) 0)) (concat processes) in
  0 < total volume_and_value ->
  AverageState processes comp = weighted volume_and_value / total volume_and_value /\
  (forall processes', Permutation (concat processes) (concat processes') -> AverageState processes' comp = AverageState processes comp) /\
  (forall lo hi, (forall x, In x volume_and_value -> 0 <= fst x /\ (0 < fst x -> lo <= snd x <= hi)) -> lo <= AverageState processes comp <= hi).
Proof.
  intros ps comp l Hv. split; [apply Average_is|]. split.
  - intros ps' P. rewrite !Average_is. apply (Permutation_map (comp_of comp)) in P.
    assert (Q : forall a b, Permutation a b -> total a = total b /\ weighted a = weighted b).
    { intros a b H. induction H as [|z a b H IH|z w a|a b c H1 IH1 H2 IH2]; [auto|rewrite !total_cons, !weighted_cons; destruct IH as [-> ->]; auto|rewrite !total_cons, !weighted_cons; split; ring|].
      destruct IH1 as [-> ->]. exact IH2. }
    destruct (Q _ _ P) as [-> ->]. reflexivity.
  - intros lo hi H. rewrite Average_is. change (map (comp_of comp) (concat ps)) with l. pose proof (weighted_bounds lo hi l H) as [B1 B2].
    split; [apply Rmult_le_reg_r with (total l); [exact Hv|]|apply Rmult_le_reg_r with (total l); [exact Hv|]];
      replace (weighted l / total l * total l) with (weighted l) by (field; lra); assumption.
Qed.
Print Assumptions C157_average.

(** For every gas (constant gamma > 1) a ghost state is found exactly if the required velocity m / (rho A) is below the speed which the gas reaches by
    expansion into vacuum. It is a gas with the entropy of the inner one, moves with the required velocity along the normal and not across it. *)
Theorem C157_exists : forall gamma m A dim dir s, 1 < gamma -> 0 < density s -> 0 < pressure s -> (dir < dim)%nat ->
  let u := nth dir (velocity s) 0 in let un := m / density s / A in
  (un * un < 2 * total_enthalpy gamma (density s) (pressure s) u <-> exists s', OuterState gamma m A dim dir s = Some s') /\
  (forall s', OuterState gamma m A dim dir s = Some s' ->
     0 < density s' /\ 0 < pressure s' /\ same_entropy gamma (density s) (pressure s) (density s') (pressure s') /\
     length (velocity s') = dim /\ nth dir (velocity s') 0 = un /\ forall d, d <> dir -> nth d (velocity s') 0 = 0).
Proof.
  intros gamma m A dim dir s Hg Hr Hp Hd u un. destruct (Outer_some gamma m A dim dir s Hg Hr Hp) as [S N]. fold u un in S, N.
  assert (E : 2 * total_enthalpy gamma (density s) (pressure s) u = u * u + 2 / (gamma - 1) * (gamma * pressure s / density s)) by (unfold total_enthalpy; field; split; lra).
  rewrite E. destruct (Rlt_dec (un * un) (u * u + 2 / (gamma - 1) * (gamma * pressure s / density s))) as [L|L].
  - split; [split; [intros _; eexists; apply S; exact L|intros _; exact L]|]. intros s' H. rewrite S in H by exact L. injection H as <-. cbn [density pressure velocity].
    assert (K : (gamma - 1) / 2 * (un * un) < gamma * pressure s / density s + (gamma - 1) / 2 * (u * u)).
    { replace (gamma * pressure s / density s + (gamma - 1) / 2 * (u * u)) with ((gamma - 1) / 2 * (u * u + 2 / (gamma - 1) * (gamma * pressure s / density s))) by (field; split; lra). apply Rmult_lt_compat_l; lra. }
    split; [apply Rmult_lt_0_compat; [exact Hr|apply exp_pos]|]. split; [apply Rmult_lt_0_compat; [exact Hp|apply exp_pos]|].
    split; [apply entropy_n; assumption|]. split; [apply only_length|]. split; [rewrite only_nth by exact Hd; now destruct (Nat.eq_dec dir dir)|].
    intros d Nd. rewrite only_nth by exact Hd. now destruct (Nat.eq_dec d dir).
  - rewrite N by exact L. split; [split; [intros H; contradiction|intros (s' & H); discriminate]|discriminate].
Qed.
Print Assumptions C157_exists.

(** The full claim is: the ghost state has the required mass flow and the total enthalpy of the inner gas. This holds if the inner gas has the required
    mass flow already: then density, pressure and the normal velocity are kept. *)
Theorem C157_massflow_partial : forall gamma m A dim dir s, 1 < gamma -> 0 < density s -> 0 < pressure s -> (dir < dim)%nat -> 0 < A ->
  density s * nth dir (velocity s) 0 * A = m ->
  exists s', OuterState gamma m A dim dir s = Some s' /\ density s' = density s /\ pressure s' = pressure s /\ nth dir (velocity s') 0 = nth dir (velocity s) 0 /\
    density s' * nth dir (velocity s') 0 * A = m.
Proof.
  intros gamma m A dim dir s Hg Hr Hp Hd HA Hm. destruct (Outer_some gamma m A dim dir s Hg Hr Hp) as [S _].
  set (u := nth dir (velocity s) 0) in *. assert (U : m / density s / A = u) by (rewrite <- Hm; field; split; lra).
  assert (C : 0 < gamma * pressure s / density s) by (apply Rmult_lt_0_compat; [nra|now apply Rinv_0_lt_compat]).
  assert (Q : quot gamma (density s) (pressure s) u m A = 1).
  { unfold quot. rewrite U. set (z := (gamma - 1) / 2 * (u * u)). set (c := gamma * pressure s / density s) in *. replace (c + z - z) with c by ring. field. lra. }
  eexists. split; [apply S|].
  - rewrite U. assert (0 < 2 / (gamma - 1)) by (apply Rmult_lt_0_compat; [lra|apply Rinv_0_lt_compat; lra]). nra.
  - cbn [density pressure velocity]. rewrite Q, U. rewrite only_nth by exact Hd. destruct (Nat.eq_dec dir dir); [|congruence].
    assert (P1 : forall z, Rpower 1 z = 1) by (intros z; unfold Rpower; rewrite ln_1, Rmult_0_r; apply exp_0). rewrite !P1, !Rmult_1_r. repeat split. exact Hm.
Qed.
Print Assumptions C157_massflow_partial.

(** In all other cases neither holds: if the gas has to be accelerated then the ghost state has more than the required mass flow and a larger total enthalpy
    than the inner gas, and less of both if the gas has to be slowed down. *)
Theorem C157_massflow_refuted : forall gamma m A dim dir s s', 1 < gamma -> 0 < density s -> 0 < pressure s -> (dir < dim)%nat -> 0 < A -> 0 < m ->
  OuterState gamma m A dim dir s = Some s' ->
  let u := nth dir (velocity s) 0 in let u' := nth dir (velocity s') 0 in
  let H := total_enthalpy gamma (density s) (pressure s) u in let H' := total_enthalpy gamma (density s') (pressure s') u' in
  (Rabs u < m / density s / A -> m < density s' * u' * A /\ H < H') /\
  (m / density s / A < Rabs u -> density s' * u' * A < m /\ H' < H).
Proof.
  intros gamma m A dim dir s s' Hg Hr Hp Hd HA Hm0 HO u u' H H'.
  destruct (C157_exists gamma m A dim dir s Hg Hr Hp Hd) as [E1 E2]. destruct (E2 s' HO) as (_ & _ & _ & _ & EU & _). fold u' in EU.
  assert (L := proj2 E1 (ex_intro _ s' HO)). fold u in L. destruct (Outer_some gamma m A dim dir s Hg Hr Hp) as [S _]. fold u in S.
  set (un := m / density s / A) in *.
  assert (X : 2 * total_enthalpy gamma (density s) (pressure s) u = u * u + 2 / (gamma - 1) * (gamma * pressure s / density s)) by (unfold total_enthalpy; field; split; lra).
  rewrite X in L. rewrite S in HO by exact L. injection HO as <-. unfold H', H. cbn [density pressure velocity]. rewrite EU. clear S E1 E2 X H H'.
  assert (K : (gamma - 1) / 2 * (un * un) < gamma * pressure s / density s + (gamma - 1) / 2 * (u * u)).
  { replace (gamma * pressure s / density s + (gamma - 1) / 2 * (u * u)) with ((gamma - 1) / 2 * (u * u + 2 / (gamma - 1) * (gamma * pressure s / density s))) by (field; split; lra). apply Rmult_lt_compat_l; lra. }
  pose proof (enthalpy_n gamma (density s) (pressure s) u m A Hg Hr Hp K _ _ (pr_ratio gamma (density s) (pressure s) u m A Hg Hr Hp K)) as EN.
  pose proof (quot_gt gamma (density s) (pressure s) u m A Hg Hr Hp K) as [Q1 Q2]. pose proof (quot_pos gamma (density s) (pressure s) u m A Hg Hr Hp K) as QP.
  set (q := quot gamma (density s) (pressure s) u m A) in *. fold un in EN, Q1, Q2.
  assert (C : 0 < gamma * pressure s / density s) by (apply Rmult_lt_0_compat; [nra|now apply Rinv_0_lt_compat]).
  set (c2 := gamma * pressure s / density s) in *. set (x := (gamma - 1) / 2 * (u * u)) in *. set (y := (gamma - 1) / 2 * (un * un)) in *.
  assert (EM : density s * un * A = m) by (unfold un; field; split; lra).
  assert (UP : 0 < un) by (unfold un; apply Rmult_lt_0_compat; [apply Rmult_lt_0_compat; [lra|now apply Rinv_0_lt_compat]|now apply Rinv_0_lt_compat]).
  assert (UU : u * u = Rabs u * Rabs u) by (unfold Rabs; destruct (Rcase_abs u); ring). pose proof (Rabs_pos u) as AP.
  set (D := total_enthalpy gamma (density s * Rpower q (1 / (gamma - 1))) (pressure s * Rpower q (gamma / (gamma - 1))) un) in *. set (T := total_enthalpy gamma (density s) (pressure s) u) in *.
  assert (MF : density s * Rpower q (1 / (gamma - 1)) * un * A = m * Rpower q (1 / (gamma - 1))) by (rewrite <- EM; ring).
  assert (IP : 0 < 1 / (gamma - 1)) by (apply Rmult_lt_0_compat; [lra|apply Rinv_0_lt_compat; lra]).
  assert (WP : 0 < (gamma - 1) * (c2 + x - y)) by (apply Rmult_lt_0_compat; lra).
  rewrite MF. split; intros V.
  - assert (XY : x < y) by (unfold x, y; rewrite UU; apply Rmult_lt_compat_l; nra). apply Q1 in XY as QQ. split.
    + pose proof (Rpower_lt q 0 (1 / (gamma - 1)) QQ IP) as W. rewrite Rpower_O in W by exact QP. nra.
    + assert (0 < (gamma - 1) * (c2 + x - y) * (D - T)) by (rewrite EN; apply Rmult_lt_0_compat; lra). nra.
  - assert (XY : y < x) by (unfold x, y; rewrite UU; apply Rmult_lt_compat_l; nra). 
    assert (QQ : q < 1) by (destruct (Rtotal_order q 1) as [Z | [Z | Z]]; [exact Z|apply Q2 in Z; lra|apply Q1 in Z; lra]). split.
    + assert (Rpower q (1 / (gamma - 1)) < 1). { pose proof (ln_increasing q 1 QP QQ) as LN. rewrite ln_1 in LN. assert (M : 1 / (gamma - 1) * ln q < 0) by nra. apply exp_increasing in M. rewrite exp_0 in M. exact M. } nra.
    + assert (0 < - ((gamma - 1) * (c2 + x - y) * (D - T))) by (rewrite EN; nra). nra.
Qed.
Print Assumptions C157_massflow_refuted.

(** A gas with speed of sound sqrt 2 and velocities (1, 3); mass flow 1 is kept, mass flow 3/2 needs acceleration, mass flow 1/2 slowing down, 4 is impossible. *)
Definition gas_ex : gas := {| density := 1; pressure := 1; velocity := [1; 3] |}.
Example C157_example :
  OuterState 2 1 1 2 0 gas_ex <> None /\ (exists s', OuterState 2 (3 / 2) 1 2 0 gas_ex = Some s') /\ Rabs (nth 0 (velocity gas_ex) 0) < (3 / 2) / density gas_ex / 1 /\
  (exists s', OuterState 2 (1 / 2) 1 2 0 gas_ex = Some s') /\ (1 / 2) / density gas_ex / 1 < Rabs (nth 0 (velocity gas_ex) 0) /\ OuterState 2 4 1 2 0 gas_ex = None /\
  0 < total (map (fun c : R * list R => (fst c, nth 0 (snd c) 0)) (concat [[(1, [2]); (0, [100])]; [(1 / 2, [5])]])) /\ AverageState [[(1, [2]); (0, [100])]; [(1 / 2, [5])]] 0 = 3.
Proof.
  assert (G : forall m, (exists s', OuterState 2 m 1 2 0 gas_ex = Some s') <-> m * m < 5).
  { intros m. destruct (C157_exists 2 m 1 2 0 gas_ex) as [E _]; cbn; try lra; try lia. rewrite <- E. unfold total_enthalpy. cbn. replace (m / 1 / 1) with m by field. replace (2 * (2 / (2 - 1) * (1 / 1) + 1 * 1 / 2)) with 5 by field. tauto. }
  split; [destruct (proj2 (G 1) ltac:(lra)) as (s' & ->); discriminate|]. split; [apply G; lra|]. split; [cbn; rewrite Rabs_R1; lra|]. split; [apply G; lra|]. split; [cbn; rewrite Rabs_R1; lra|].
  split; [destruct (OuterState 2 4 1 2 0 gas_ex) eqn:E; [|reflexivity]; exfalso; pose proof (proj1 (G 4) (ex_intro _ g E)); lra|].
  split; [cbn; lra|]. unfold AverageState, TotalVolume, sum. cbn. field.
Qed.
