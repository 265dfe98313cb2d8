(** Isentropic changes of the pressure, lemmas for C93. *)
From Coq Require Import List Reals Bool Lra Lia.
From Verif Require Import GasModel ExpansionModel ExpansionSpec ExpansionProofs.
Import ListNotations.
Local Open Scope R_scope.

Lemma Rpower_pos : forall x y, 0 < Rpower x y.
Proof. intros. unfold Rpower. apply exp_pos. Qed.
Lemma Rpower_inv : forall x y, 0 < x -> Rpower (/ x) y = / Rpower x y.
Proof. intros x y Hx. unfold Rpower. rewrite ln_Rinv by exact Hx. rewrite <- exp_Ropp. f_equal. ring. Qed.
Lemma Rpower_div : forall x y z, 0 < x -> 0 < y -> Rpower (x / y) z = Rpower x z / Rpower y z.
Proof.
  intros x y z Hx Hy. unfold Rdiv. rewrite <- Rpower_mult_distr by (try exact Hx; apply Rinv_0_lt_compat; exact Hy).
  rewrite Rpower_inv by exact Hy. reflexivity.
Qed.
Lemma Rpower_base_1 : forall y, Rpower 1 y = 1.
Proof. intro y. unfold Rpower. rewrite ln_1, Rmult_0_r. apply exp_0. Qed.
Lemma Rpower_le_iff : forall x y a, 0 < a -> 0 < x -> 0 < y -> (Rpower x a <= Rpower y a <-> x <= y).
Proof.
  intros x y a Ha Hx Hy. split; intro H.
  - destruct (Rle_or_lt x y) as [L|L]; [exact L|]. generalize (Rlt_Rpower_l y x a Ha (conj Hy L)). lra.
  - destruct (Rle_lt_or_eq_dec x y H) as [L|E]; [|rewrite E; lra]. generalize (Rlt_Rpower_l x y a Ha (conj Hx L)). lra.
Qed.

(** density after an isentropic change of the pressure *)
Definition iso (g rho p pn : R) : R := rho * Rpower (pn / p) (1 / g).
Lemma iso_pos : forall g rho p pn, 0 < rho -> 0 < iso g rho p pn.
Proof. intros. unfold iso. apply Rmult_lt_0_compat; [assumption | apply Rpower_pos]. Qed.

Lemma iso_entropy : forall g rho p pn, 1 < g -> 0 < rho -> 0 < p -> 0 < pn -> same_entropy g rho p (iso g rho p pn) pn.
Proof.
  intros g rho p pn Hg Hr Hp Hn. unfold same_entropy, iso.
  rewrite <- Rpower_mult_distr by (try exact Hr; apply Rpower_pos).
  rewrite Rpower_mult. replace (1 / g * g) with 1 by (field; lra).
  rewrite Rpower_1 by (apply Rdiv_lt_0_compat; assumption).
  field. repeat split; try lra. apply Rgt_not_eq. apply Rpower_pos.
Qed.

(** the density through the stagnation state is the same *)
Lemma stagnation_density : forall g rho p pn al, 1 < g -> 0 < rho -> 0 < p -> 0 < pn -> 0 < al ->
  rho * Rpower al (1 / (g - 1)) * Rpower (pn / (p * Rpower al (g * (1 / (g - 1))))) (1 / g) = iso g rho p pn.
Proof.
  intros g rho p pn al Hg Hr Hp Hn Ha. unfold iso.
  assert (P : 0 < Rpower al (g * (1 / (g - 1)))) by apply Rpower_pos.
  replace (pn / (p * Rpower al (g * (1 / (g - 1))))) with (pn / p / Rpower al (g * (1 / (g - 1)))) by (field; split; lra).
  rewrite Rpower_div by (try exact P; apply Rdiv_lt_0_compat; assumption).
  rewrite Rpower_mult. replace (g * (1 / (g - 1)) * (1 / g)) with (1 / (g - 1)) by (field; lra).
  field. apply Rgt_not_eq. apply Rpower_pos.
Qed.

(** temperature after the change *)
Lemma iso_temperature : forall g rho p pn, 1 < g -> 0 < rho -> 0 < p -> 0 < pn ->
  pn / iso g rho p pn = p / rho * Rpower (pn / p) ((g - 1) / g).
Proof.
  intros g rho p pn Hg Hr Hp Hn. unfold iso.
  assert (Q : 0 < pn / p) by (apply Rdiv_lt_0_compat; assumption).
  replace ((g - 1) / g) with (1 + - (1 / g)) by (field; lra).
  rewrite Rpower_plus, Rpower_1 by exact Q. rewrite Rpower_Ropp. field.
  repeat split; try lra. apply Rgt_not_eq. apply Rpower_pos.
Qed.

Lemma temperature_le : forall g rho p pn al, 1 < g -> 0 < rho -> 0 < p -> 0 < pn -> 0 < al ->
  (pn / iso g rho p pn <= p / rho * al <-> pn <= p * Rpower al (g / (g - 1))).
Proof.
  intros g rho p pn al Hg Hr Hp Hn Ha. rewrite iso_temperature by assumption.
  assert (Q : 0 < pn / p) by (apply Rdiv_lt_0_compat; assumption).
  assert (T : 0 < p / rho) by (apply Rdiv_lt_0_compat; assumption).
  assert (E : al = Rpower (Rpower al (g / (g - 1))) ((g - 1) / g)).
  { rewrite Rpower_mult. replace (g / (g - 1) * ((g - 1) / g)) with 1 by (field; lra). rewrite Rpower_1 by exact Ha. reflexivity. }
  assert (X : 0 < (g - 1) / g) by (apply Rdiv_lt_0_compat; lra).
  assert (I := Rpower_le_iff (pn / p) (Rpower al (g / (g - 1))) ((g - 1) / g) X Q (Rpower_pos _ _)).
  rewrite <- E in I.
  assert (M : pn = p * (pn / p)) by (field; lra).
  split; intro H.
  - apply Rmult_le_reg_l in H; [|exact T]. apply I in H. rewrite M. apply Rmult_le_compat_l; lra.
  - apply Rmult_le_compat_l; [lra|]. apply I. apply Rmult_le_reg_l with p; [exact Hp|]. rewrite <- M. exact H.
Qed.

Lemma temperature_lt : forall g rho p pn, 1 < g -> 0 < rho -> 0 < p -> 0 < pn -> pn < p -> pn / iso g rho p pn < p / rho.
Proof.
  intros g rho p pn Hg Hr Hp Hn H.
  rewrite iso_temperature by assumption.
  assert (T : 0 < p / rho) by (apply Rdiv_lt_0_compat; assumption).
  assert (Q : 0 < pn / p) by (apply Rdiv_lt_0_compat; assumption).
  assert (X : 0 < (g - 1) / g) by (apply Rdiv_lt_0_compat; lra).
  assert (L : pn / p < 1) by (apply Rmult_lt_reg_r with p; [exact Hp|]; unfold Rdiv; rewrite Rmult_assoc, Rinv_l by lra; lra).
  generalize (Rlt_Rpower_l _ _ _ X (conj Q L)). rewrite Rpower_base_1. intro Z.
  replace (p / rho) with (p / rho * 1) at 2 by ring. apply Rmult_lt_compat_l; assumption.
Qed.

Lemma iso_same : forall g rho p, 0 < p -> iso g rho p p = rho.
Proof. intros g rho p Hp. unfold iso. replace (p / p) with 1 by (field; lra). rewrite Rpower_base_1. ring. Qed.
Lemma iso_neq : forall g rho p pn, 1 < g -> 0 < rho -> 0 < p -> 0 < pn -> pn <> p -> iso g rho p pn <> rho.
Proof.
  intros g rho p pn Hg Hr Hp Hn H E. apply H.
  assert (S := iso_entropy g rho p pn Hg Hr Hp Hn). rewrite E in S. unfold same_entropy in S.
  apply Rmult_eq_reg_r with (/ Rpower rho g); [symmetry; exact S|]. apply Rinv_neq_0_compat. apply Rgt_not_eq. apply Rpower_pos.
Qed.

(** velocity of a state of the mixture *)
Definition velocity_x (q : mix) : list R := map (fun m => m / x_density q) (x_momentum q).

Lemma first_zeros : forall x v, v <> [] -> sprod (set_first x (zeros v)) (set_first x (zeros v)) = x * x.
Proof.
  intros x [|y v] H; [congruence|]. cbn [zeros map set_first sprod]. fold (zeros v). rewrite sprod_zeros. ring.
Qed.

Section SIP.
Variables (g : R) (q : mix) (pn : R).
Hypothesis Hg : 1 < g.
Hypothesis Hr : 0 < x_density q.
Hypothesis Hp : 0 < x_pressure q.
Hypothesis Hc : x_speed_of_sound q * x_speed_of_sound q = g * x_pressure q / x_density q.
Hypothesis Hn : 0 < pn.
Let u := velocity_x q.
Let al := 1 + (g - 1) / 2 * mach_squared g (x_density q) u (x_pressure q).
Let rn := iso g (x_density q) (x_pressure q) pn.
Let u2 := 2 * (g / (g - 1)) * (x_pressure q / x_density q * al - pn / rn).

Lemma al_ge : 1 <= al.
Proof.
  unfold al, mach_squared. assert (0 <= (g - 1) / 2 * (sprod u u / (g * x_pressure q / x_density q))); [|lra].
  apply Rmult_le_pos; [lra|]. apply Rmult_le_pos; [apply sprod_nonneg|]. left. apply Rinv_0_lt_compat.
  apply Rdiv_lt_0_compat; [apply Rmult_lt_0_compat; lra | exact Hr].
Qed.

Lemma sip_eq :
  SetIsentropicPressure g q pn =
  let v := set_first (sgn u2 * sqrt (Rabs u2)) (zeros u) in
  mkMix rn (vscale rn v) (total_energy g rn v pn) (x_species q) pn (sqrt (g * pn / rn)).
Proof.
  assert (A1 := al_ge). assert (A2 : 0 < al) by lra.
  unfold SetIsentropicPressure. fold (velocity_x q). fold u.
  assert (EA : 1 + 1 / 2 * (squaredNorm u / (x_speed_of_sound q * x_speed_of_sound q)) * (g - 1) = al).
  { rewrite Hc, squaredNorm_sprod. unfold al, mach_squared. lra. }
  rewrite EA. rewrite (stagnation_density g (x_density q) (x_pressure q) pn al Hg Hr Hp Hn A2). fold rn.
  replace (g * (1 / (g - 1))) with (g / (g - 1)) by (field; lra). fold u2. cbv zeta.
  f_equal. rewrite kinetic_scaled by (apply Rgt_not_eq; apply iso_pos; exact Hr). unfold total_energy. field. lra.
Qed.

Lemma u2_stagnation :
  stagnation_enthalpy g (x_density q) u (x_pressure q) = enthalpy g rn pn + u2 / 2.
Proof.
  unfold stagnation_enthalpy, enthalpy, u2, al, mach_squared. assert (0 < rn) by (apply iso_pos; exact Hr).
  field. repeat split; lra.
Qed.

Lemma u2_nonneg : 0 <= u2 <-> pn <= stagnation_pressure g (x_density q) u (x_pressure q).
Proof.
  assert (A1 := al_ge). assert (A2 : 0 < al) by lra.
  unfold stagnation_pressure. fold al. rewrite <- (temperature_le g (x_density q) (x_pressure q) pn al) by assumption. fold rn.
  unfold u2. assert (G : 0 < 2 * (g / (g - 1))) by (apply Rmult_lt_0_compat; [lra | apply Rdiv_lt_0_compat; lra]).
  split; intro H.
  - destruct (Rle_or_lt (pn / rn) (x_pressure q / x_density q * al)) as [L|L]; [exact L|].
    assert (2 * (g / (g - 1)) * (x_pressure q / x_density q * al - pn / rn) < 0); [|lra].
    replace 0 with (2 * (g / (g - 1)) * 0) by ring. apply Rmult_lt_compat_l; [exact G | lra].
  - apply Rmult_le_pos; lra.
Qed.

Lemma sip_velocity : velocity_x (SetIsentropicPressure g q pn) = set_first (sgn u2 * sqrt (Rabs u2)) (zeros u).
Proof.
  rewrite sip_eq. unfold velocity_x. cbn [x_density x_momentum]. apply vscale_div. apply Rgt_not_eq. apply iso_pos. exact Hr.
Qed.
End SIP.

Lemma velocity_nonempty : forall q, x_momentum q <> [] -> velocity_x q <> [].
Proof. intros q H. unfold velocity_x. destruct (x_momentum q); [congruence | discriminate]. Qed.
Lemma zeros_zeros : forall v, zeros (zeros v) = zeros v.
Proof. intro v. unfold zeros. rewrite map_map. reflexivity. Qed.
Lemma zeros_map : forall (f : R -> R) v, zeros (map f v) = zeros v.
Proof. intros f v. unfold zeros. rewrite map_map. reflexivity. Qed.
Lemma zeros_div : forall r v, map (fun m => m / r) (zeros v) = zeros v.
Proof. intros r v. unfold zeros. rewrite map_map. apply map_ext. intro. unfold Rdiv. ring. Qed.
Lemma zeros_scale : forall r v, vscale r (zeros v) = zeros v.
Proof. intros r v. unfold vscale, zeros. rewrite map_map. apply map_ext. intro. ring. Qed.
Lemma set_first_twice : forall x y v, set_first x (set_first y v) = set_first x v.
Proof. intros x y [|z v]; reflexivity. Qed.
Lemma set_first_scale : forall r x v, set_first (r * x) (vscale r v) = vscale r (set_first x v).
Proof. intros r x [|z v]; reflexivity. Qed.
Lemma set_first_scale0 : forall r x y v, set_first (r * x) (vscale r (set_first y (zeros v))) = vscale r (set_first x (zeros v)).
Proof. intros r x y [|z v]; reflexivity. Qed.
