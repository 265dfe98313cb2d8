(** Proofs for C157. *)
From Coq Require Import List Reals Lra Lia Psatz.
From Verif Require Import InflowModel InflowSpec.
Import ListNotations.
Local Open Scope R_scope.

Lemma total_cons a l : total (a :: l) = fst a + total l.
Proof. reflexivity. Qed.
Lemma weighted_cons a l : weighted (a :: l) = fst a * snd a + weighted l.
Proof. reflexivity. Qed.
Lemma total_nil : total [] = 0.
Proof. reflexivity. Qed.
Lemma weighted_nil : weighted [] = 0.
Proof. reflexivity. Qed.
Lemma sum_cons a l : sum (a :: l) = a + sum l.
Proof. reflexivity. Qed.
Lemma fold_total cs : forall a, fold_left (fun local_volume (c : R * list R) => local_volume + fst c) cs a = a + total (map (fun c => (fst c, 0)) cs).
Proof. induction cs as [|c cs IH]; intros a; cbn [fold_left map]; [rewrite total_nil; ring|]. rewrite IH, total_cons. cbn [fst]. ring. Qed.
Lemma total_app a b : total (a ++ b) = total a + total b.
Proof. induction a as [|x a IH]; cbn [app]; [rewrite total_nil; ring|]. rewrite !total_cons, IH. ring. Qed.
Lemma weighted_app a b : weighted (a ++ b) = weighted a + weighted b.
Proof. induction a as [|x a IH]; cbn [app]; [rewrite weighted_nil; ring|]. rewrite !weighted_cons, IH. ring. Qed.
Definition comp_of (comp : nat) (c : R * list R) : R * R := (fst c, nth comp (snd c) 0).
Lemma total_any comp cs : total (map (fun c : R * list R => (fst c, 0)) cs) = total (map (comp_of comp) cs).
Proof. induction cs as [|c cs IH]; cbn [map]; [reflexivity|]. rewrite !total_cons, IH. reflexivity. Qed.
Lemma TotalVolume_is comp ps : TotalVolume ps = total (map (comp_of comp) (concat ps)).
Proof.
  unfold TotalVolume. induction ps as [|cs ps IH]; [reflexivity|]. cbn [map concat]. rewrite sum_cons, IH, map_app, total_app, fold_total, (total_any comp). ring.
Qed.
Lemma fold_weighted comp V cs : forall a, fold_left (fun buffer (c : R * list R) => buffer + fst c / V * nth comp (snd c) 0) cs a = a + weighted (map (comp_of comp) cs) / V.
Proof. induction cs as [|c cs IH]; intros a; cbn [fold_left map]; [rewrite weighted_nil; unfold Rdiv; ring|]. rewrite IH, weighted_cons. unfold comp_of at 2 3, Rdiv. cbn [fst snd]. ring. Qed.
Lemma Average_is comp ps : AverageState ps comp = weighted (map (comp_of comp) (concat ps)) / total (map (comp_of comp) (concat ps)).
Proof.
  unfold AverageState. rewrite (TotalVolume_is comp). set (V := total _). clearbody V.
  induction ps as [|cs ps IH]; [cbn [map concat]; rewrite weighted_nil; unfold sum, Rdiv; cbn; ring|]. cbn [map concat]. rewrite sum_cons, IH, map_app, weighted_app, fold_weighted. unfold Rdiv. ring.
Qed.
Lemma weighted_bounds lo hi : forall l : list (R * R), (forall x, In x l -> 0 <= fst x /\ (0 < fst x -> lo <= snd x <= hi)) -> lo * total l <= weighted l <= hi * total l.
Proof.
  induction l as [|x l IH]; intros H; [rewrite total_nil, weighted_nil; lra|]. specialize (IH (fun y Hy => H y (or_intror Hy))). destruct (H x (or_introl eq_refl)) as [P B].
  rewrite total_cons, weighted_cons. destruct P as [P|P]; [specialize (B P); nra|rewrite <- P; lra].
Qed.

Section Gas.
Variables gamma rho p u m A : R.
Hypothesis Hg : 1 < gamma.
Hypothesis Hr : 0 < rho.
Hypothesis Hp : 0 < p.
Let c2 := gamma * p / rho.
Let un := m / rho / A.
Let x := (gamma - 1) / 2 * (u * u).
Let y := (gamma - 1) / 2 * (un * un).
Lemma c2_pos : 0 < c2.
Proof. unfold c2. apply Rmult_lt_0_compat; [nra|]. now apply Rinv_0_lt_compat. Qed.
Lemma x_pos : 0 <= x.
Proof. unfold x. pose proof (Rle_0_sqr u) as S. unfold Rsqr in S. nra. Qed.
Lemma y_pos : 0 <= y.
Proof. unfold y. pose proof (Rle_0_sqr un) as S. unfold Rsqr in S. nra. Qed.
Definition crit : R := sqrt (sqrt c2 * sqrt c2 + 1 / 2 * (gamma - 1) * u * u) * sqrt (2 * (1 / (gamma + 1))).
Lemma crit_pos : 0 < crit.
Proof.
  pose proof c2_pos. pose proof x_pos as X. unfold x in X. apply Rmult_lt_0_compat; apply sqrt_lt_R0; [rewrite sqrt_sqrt by lra; nra|].
  apply Rmult_lt_0_compat; [lra|]. unfold Rdiv. rewrite Rmult_1_l. apply Rinv_0_lt_compat. lra.
Qed.
Lemma crit_sq : crit * crit = (c2 + x) * (2 / (gamma + 1)).
Proof.
  pose proof c2_pos. pose proof x_pos as X. unfold crit. rewrite (sqrt_sqrt c2) by lra.
  set (a := c2 + 1 / 2 * (gamma - 1) * u * u). set (b := 2 * (1 / (gamma + 1))).
  replace (sqrt a * sqrt b * (sqrt a * sqrt b)) with ((sqrt a * sqrt a) * (sqrt b * sqrt b)) by ring.
  rewrite !sqrt_sqrt; [unfold a, b, x; field; lra| |unfold a, x in *; nra].
  unfold b. apply Rmult_le_pos; [lra|]. unfold Rdiv. rewrite Rmult_1_l. left. apply Rinv_0_lt_compat. lra.
Qed.
Lemma base_val v : 1 - (gamma - 1) * (1 / (gamma + 1)) * (v / crit) * (v / crit) = (c2 + x - (gamma - 1) / 2 * (v * v)) / (c2 + x).
Proof.
  pose proof crit_pos as C. pose proof c2_pos. pose proof x_pos.
  replace (1 - (gamma - 1) * (1 / (gamma + 1)) * (v / crit) * (v / crit)) with (1 - (gamma - 1) / (gamma + 1) * (v * v) / (crit * crit)) by (field; split; lra).
  rewrite crit_sq. field. split; lra.
Qed.
Definition quot : R := c2 / (c2 + x - y).
Lemma quot_pos : y < c2 + x -> 0 < quot.
Proof. intros H. pose proof c2_pos. unfold quot. apply Rmult_lt_0_compat; [lra|]. apply Rinv_0_lt_compat. lra. Qed.
Lemma pow_n : y < c2 + x -> p * Rpower ((c2 + x - y) / (c2 + x)) (- gamma / (gamma - 1)) * Rpower (c2 / (c2 + x)) (gamma / (gamma - 1)) = p * Rpower quot (gamma / (gamma - 1)).
Proof.
  intros H. pose proof c2_pos. pose proof x_pos. rewrite Rmult_assoc. f_equal.
  assert (P1 : 0 < (c2 + x - y) / (c2 + x)) by (apply Rmult_lt_0_compat; [lra|apply Rinv_0_lt_compat; lra]).
  replace (c2 / (c2 + x)) with (quot * ((c2 + x - y) / (c2 + x))) by (unfold quot; field; split; lra).
  rewrite <- Rpower_mult_distr by (first [exact P1 | now apply quot_pos]).
  rewrite <- Rmult_assoc, (Rmult_comm (Rpower _ _) (Rpower quot _)), Rmult_assoc, <- Rpower_plus.
  replace (- gamma / (gamma - 1) + gamma / (gamma - 1)) with 0 by (field; lra). rewrite Rpower_O by exact P1. ring.
Qed.
Lemma density_n : y < c2 + x -> isentropic_density gamma rho p (p * Rpower quot (gamma / (gamma - 1))) = rho * Rpower quot (1 / (gamma - 1)).
Proof.
  intros H. unfold isentropic_density. f_equal. replace (p * Rpower quot (gamma / (gamma - 1)) / p) with (Rpower quot (gamma / (gamma - 1))) by (field; lra).
  rewrite Rpower_mult. f_equal. field. split; lra.
Qed.
Lemma pr_ratio : y < c2 + x -> (p * Rpower quot (gamma / (gamma - 1))) / (rho * Rpower quot (1 / (gamma - 1))) = p / rho * quot.
Proof.
  intros H. pose proof (quot_pos H) as Q. replace (gamma / (gamma - 1)) with (1 + 1 / (gamma - 1)) by (field; lra). rewrite Rpower_plus, Rpower_1 by exact Q.
  assert (0 < Rpower quot (1 / (gamma - 1))) by apply exp_pos. field. split; lra.
Qed.
Lemma entropy_n : y < c2 + x -> same_entropy gamma rho p (rho * Rpower quot (1 / (gamma - 1))) (p * Rpower quot (gamma / (gamma - 1))).
Proof.
  intros H. pose proof (quot_pos H) as Q. unfold same_entropy. rewrite <- Rpower_mult_distr by (try exact Hr; apply exp_pos). rewrite Rpower_mult.
  replace (1 / (gamma - 1) * gamma) with (gamma / (gamma - 1)) by (field; lra).
  assert (0 < Rpower quot (gamma / (gamma - 1))) by apply exp_pos. assert (0 < Rpower rho gamma) by apply exp_pos. field. split; lra.
Qed.
(** The enthalpy of the ghost gas minus that of the inner gas *)
Lemma enthalpy_n : y < c2 + x -> forall rho' p', p' / rho' = p / rho * quot ->
  (gamma - 1) * (c2 + x - y) * (total_enthalpy gamma rho' p' un - total_enthalpy gamma rho p u) = (y - x) * (c2 + (c2 + x - y)).
Proof.
  intros H rho' p' E. unfold total_enthalpy. rewrite E. pose proof c2_pos.
  replace (gamma / (gamma - 1) * (p / rho * quot)) with (c2 * quot / (gamma - 1)) by (unfold c2; field; split; lra).
  replace (gamma / (gamma - 1) * (p / rho)) with (c2 / (gamma - 1)) by (unfold c2; field; split; lra).
  replace (un * un / 2) with (y / (gamma - 1)) by (unfold y; field; lra).
  replace (u * u / 2) with (x / (gamma - 1)) by (unfold x; field; lra).
  unfold quot. field. split; lra.
Qed.
Lemma quot_gt : y < c2 + x -> (1 < quot <-> x < y) /\ (quot = 1 <-> x = y).
Proof.
  intros H. pose proof c2_pos. assert (E : quot * (c2 + x - y) = c2) by (unfold quot; field; lra). split; split; intros K; try nra.
Qed.
End Gas.

Lemma Outer_some gamma m A dim dir s : 1 < gamma -> 0 < density s -> 0 < pressure s ->
  let rho := density s in let p := pressure s in let u := nth dir (velocity s) 0 in let un := m / rho / A in
  let q := quot gamma rho p u m A in
  (un * un < u * u + 2 / (gamma - 1) * (gamma * p / rho) ->
   OuterState gamma m A dim dir s = Some {| density := rho * Rpower q (1 / (gamma - 1)); pressure := p * Rpower q (gamma / (gamma - 1)); velocity := only_component dim dir un |}) /\
  (~ un * un < u * u + 2 / (gamma - 1) * (gamma * p / rho) -> OuterState gamma m A dim dir s = None).
Proof.
  intros Hg Hr Hp rho p u un q. unfold OuterState. fold rho p u. cbv zeta. fold un.
  assert (Hr' : 0 < rho) by exact Hr. assert (Hp' : 0 < p) by exact Hp.
  unfold speed_of_sound. fold rho p. fold (crit gamma rho p u). rewrite !base_val by assumption.
  assert (C : 0 < gamma * p / rho) by (apply Rmult_lt_0_compat; [nra|now apply Rinv_0_lt_compat]).
  assert (X : 0 <= (gamma - 1) / 2 * (u * u)) by (pose proof (Rle_0_sqr u) as Q; unfold Rsqr in Q; nra).
  set (c2 := gamma * p / rho) in *. set (x := (gamma - 1) / 2 * (u * u)) in *. set (y := (gamma - 1) / 2 * (un * un)).
  assert (I : un * un < u * u + 2 / (gamma - 1) * c2 <-> y < c2 + x).
  { unfold y, x. assert (E : (gamma - 1) / 2 * (u * u + 2 / (gamma - 1) * c2) = c2 + (gamma - 1) / 2 * (u * u)) by (field; lra). rewrite <- E. split; intros K; [apply Rmult_lt_compat_l; lra|apply Rmult_lt_reg_l with ((gamma - 1) / 2); lra]. }
  rewrite I. clear I.
  split; intros K.
  - destruct (Rlt_dec 0 ((c2 + x - y) / (c2 + x))) as [L|L]; [|exfalso; apply L; apply Rmult_lt_0_compat; [lra|apply Rinv_0_lt_compat; lra]].
    replace (c2 + x - x) with c2 by ring.
    destruct (Rlt_dec 0 (c2 / (c2 + x))) as [L'|L']; [|exfalso; apply L'; apply Rmult_lt_0_compat; [lra|apply Rinv_0_lt_compat; lra]].
    assert (E : p * Rpower ((c2 + x - y) / (c2 + x)) (- gamma / (gamma - 1)) * Rpower (c2 / (c2 + x)) (gamma / (gamma - 1)) = p * Rpower q (gamma / (gamma - 1))) by (apply pow_n; assumption).
    rewrite E. f_equal. f_equal. apply density_n; assumption.
  - destruct (Rlt_dec 0 ((c2 + x - y) / (c2 + x))) as [L|L]; [exfalso|reflexivity].
    apply K. assert (0 < (c2 + x - y) / (c2 + x) * (c2 + x)) by (apply Rmult_lt_0_compat; lra). replace ((c2 + x - y) / (c2 + x) * (c2 + x)) with (c2 + x - y) in H by (field; lra). lra.
Qed.
Lemma only_nth dim : forall dir u d, (dir < dim)%nat -> nth d (only_component dim dir u) 0 = if Nat.eq_dec d dir then u else 0.
Proof.
  induction dim as [|dim IH]; intros dir u d H; [lia|]. destruct dir as [|dir], d as [|d]; cbn [only_component nth]; try reflexivity.
  - destruct (Nat.eq_dec (S d) 0); [lia|]. apply nth_repeat.
  - rewrite IH by lia. destruct (Nat.eq_dec d dir), (Nat.eq_dec (S d) (S dir)); try lia; reflexivity.
Qed.
Lemma only_length dim : forall dir u, length (only_component dim dir u) = dim.
Proof. induction dim as [|dim IH]; intros [|dir] u; cbn; try reflexivity; [now rewrite repeat_length|now rewrite IH]. Qed.
