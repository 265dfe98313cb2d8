(** Lemmas for C95. *)
From Coq Require Import List ZArith Reals Bool Lra Lia.
From Verif Require Import DiffusionModel DiffusionSpec.
Local Open Scope R_scope.

(** velocity and mass fractions *)
Definition vel (q : cell) : R := mom q / rho q.
Definition frac (s : nat) (q : cell) : R := species q s / rho q.
(** specific enthalpy g * e *)
Definition enth (g : R) (q : cell) : R := g * (energy q / rho q - vel q * vel q / 2).

Lemma in_range : forall i n, (0 <= i < n)%Z -> ((0 <=? i) && (i <? n))%Z = true.
Proof. intros i n H. apply andb_true_intro. split; [apply Z.leb_le | apply Z.ltb_lt]; lia. Qed.

Lemma flux_mom : forall tm dx l r, dx <> 0 -> mom (ComputeDiffusionFlux tm (1 / dx) l r) = fick (four_three_mu_effective (constants_ tm)) dx (vel l) (vel r).
Proof. intros. unfold ComputeDiffusionFlux, fick, vel, Rdiv. cbn [mom]. ring. Qed.
Lemma flux_species : forall tm dx l r s, dx <> 0 -> species (ComputeDiffusionFlux tm (1 / dx) l r) s = fick (mu_Sc_effective (constants_ tm)) dx (frac s l) (frac s r).
Proof. intros. unfold ComputeDiffusionFlux, fick, frac, Rdiv. cbn [species]. ring. Qed.
Lemma enthalpy_enth : forall g q, rho q <> 0 -> Enthalpy g q (1 / rho q) = enth g q.
Proof. intros g q H. unfold Enthalpy, enth, vel. field. exact H. Qed.
Lemma flux_energy : forall tm dx l r, dx <> 0 -> rho l <> 0 -> rho r <> 0 ->
  energy (ComputeDiffusionFlux tm (1 / dx) l r) =
  (vel l + vel r) / 2 * fick (four_three_mu_effective (constants_ tm)) dx (vel l) (vel r) +
  fick (mu_Pr_effective (constants_ tm)) dx (enth (gamma tm) l) (enth (gamma tm) r).
Proof.
  intros tm dx l r H Hl Hr. unfold ComputeDiffusionFlux. cbn [energy]. rewrite !enthalpy_enth by assumption.
  unfold fick, vel. field. repeat split; assumption.
Qed.

(** *** one explicit step for a quantity x carried by the density: an average of three cells *)
Definition step (a xl x xr : R) : R := x + a * (xl - 2 * x + xr).
Lemma step_within : forall lo hi a xl x xr, 0 <= a <= 1 / 2 -> within lo hi xl -> within lo hi x -> within lo hi xr -> within lo hi (step a xl x xr).
Proof.
  unfold within, step. intros lo hi a xl x xr Ha [A1 A2] [B1 B2] [C1 C2].
  assert (E : x + a * (xl - 2 * x + xr) = (1 - 2 * a) * x + a * xl + a * xr) by ring. rewrite E.
  assert (P1 : 0 <= (1 - 2 * a) * (x - lo)) by (apply Rmult_le_pos; lra).
  assert (P2 : 0 <= a * (xl - lo)) by (apply Rmult_le_pos; lra).
  assert (P3 : 0 <= a * (xr - lo)) by (apply Rmult_le_pos; lra).
  assert (Q1 : 0 <= (1 - 2 * a) * (hi - x)) by (apply Rmult_le_pos; lra).
  assert (Q2 : 0 <= a * (hi - xl)) by (apply Rmult_le_pos; lra).
  assert (Q3 : 0 <= a * (hi - xr)) by (apply Rmult_le_pos; lra). split; lra.
Qed.
Lemma step_square : forall a xl x xr, 0 <= a <= 1 / 2 ->
  step a xl x xr * step a xl x xr <= x * x + a * (xl * xl - 2 * (x * x) + xr * xr).
Proof.
  intros a xl x xr Ha. unfold step.
  assert (P1 : 0 <= (1 - 2 * a) * a * ((x - xl) * (x - xl))).
  { apply Rmult_le_pos; [apply Rmult_le_pos; lra|]. generalize (Rle_0_sqr (x - xl)). unfold Rsqr. lra. }
  assert (P2 : 0 <= (1 - 2 * a) * a * ((x - xr) * (x - xr))).
  { apply Rmult_le_pos; [apply Rmult_le_pos; lra|]. generalize (Rle_0_sqr (x - xr)). unfold Rsqr. lra. }
  assert (P3 : 0 <= a * a * ((xl - xr) * (xl - xr))).
  { apply Rmult_le_pos; [apply Rmult_le_pos; lra|]. generalize (Rle_0_sqr (xl - xr)). unfold Rsqr. lra. }
  replace (x * x + a * (xl * xl - 2 * (x * x) + xr * xr)) with
    ((x + a * (xl - 2 * x + xr)) * (x + a * (xl - 2 * x + xr)) + ((1 - 2 * a) * a * ((x - xl) * (x - xl)) + (1 - 2 * a) * a * ((x - xr) * (x - xr)) + a * a * ((xl - xr) * (xl - xr)))) by ring.
  lra.
Qed.

(** the second stage: half of the old value and half of two explicit steps *)
Definition lap (x : Z -> R) (i : Z) : R := x (i - 1)%Z - 2 * x i + x (i + 1)%Z.

Section Advance.
Variables (tm : term) (bc : (Z -> cell) -> Z -> cell) (n : Z) (dx dt : R) (q : Z -> cell).
Hypothesis Hdx : 0 < dx.
Hypothesis Hbc : forall f i, (0 <= i < n)%Z -> bc f i = f i.
Let aux := bc (UpdateConservatively q (ComputeDiffusionFluxes tm (1 / dx) q) (1 / 2 * dt) dx).
Let q' := AdvanceLevel tm bc n dx dt q.

Lemma advance_inner : forall i, (0 <= i < n)%Z -> q' i = UpdateConservatively q (ComputeDiffusionFluxes tm (1 / dx) aux) dt dx i.
Proof. intros i Hi. unfold q', AdvanceLevel. rewrite Hbc by exact Hi. rewrite in_range by exact Hi. reflexivity. Qed.
Lemma aux_inner : forall i, (0 <= i < n)%Z -> aux i = UpdateConservatively q (ComputeDiffusionFluxes tm (1 / dx) q) (1 / 2 * dt) dx i.
Proof. intros i Hi. unfold aux. apply Hbc. exact Hi. Qed.
Lemma update_rho : forall f t i, rho (UpdateConservatively q (ComputeDiffusionFluxes tm (1 / dx) f) t dx i) = rho (q i).
Proof. intros. unfold UpdateConservatively, ComputeDiffusionFluxes, ComputeDiffusionFlux. cbn [rho]. ring. Qed.
Lemma update_passive : forall f t i s, passive (UpdateConservatively q (ComputeDiffusionFluxes tm (1 / dx) f) t dx i) s = passive (q i) s.
Proof. intros. unfold UpdateConservatively, ComputeDiffusionFluxes, ComputeDiffusionFlux. cbn [passive]. ring. Qed.

Lemma rho_inner : forall i, (0 <= i < n)%Z -> rho (q' i) = rho (q i).
Proof. intros i Hi. rewrite advance_inner by exact Hi. apply update_rho. Qed.
Lemma rho_aux : forall i, (0 <= i < n)%Z -> rho (aux i) = rho (q i).
Proof. intros i Hi. rewrite aux_inner by exact Hi. apply update_rho. Qed.

(** velocity and mass fractions after an update *)
Lemma update_vel : forall f t i, rho (q i) <> 0 ->
  vel (UpdateConservatively q (ComputeDiffusionFluxes tm (1 / dx) f) t dx i) =
  vel (q i) + t * four_three_mu_effective (constants_ tm) / (dx * dx * rho (q i)) * lap (fun j => vel (f j)) i.
Proof.
  intros f t i Hr. unfold vel at 1. rewrite update_rho. unfold UpdateConservatively, ComputeDiffusionFluxes. cbn [mom].
  rewrite !flux_mom by lra. replace (i + 1 - 1)%Z with i by lia. unfold fick, lap, vel at 5. field. split; lra.
Qed.
Lemma update_frac : forall f t i s, rho (q i) <> 0 ->
  frac s (UpdateConservatively q (ComputeDiffusionFluxes tm (1 / dx) f) t dx i) =
  frac s (q i) + t * mu_Sc_effective (constants_ tm) / (dx * dx * rho (q i)) * lap (fun j => frac s (f j)) i.
Proof.
  intros f t i s Hr. unfold frac at 1. rewrite update_rho. unfold UpdateConservatively, ComputeDiffusionFluxes. cbn [species].
  rewrite !flux_species by lra. replace (i + 1 - 1)%Z with i by lia. unfold fick, lap, frac at 5. field. split; lra.
Qed.
End Advance.

(** *** both stages for one quantity: x' = (x + E E x) / 2 with the step E of an explicit method *)
Lemma two_stages : forall a x xl xr yl y yr, y = x + a / 2 * (xl - 2 * x + xr) ->
  x + a * (yl - 2 * y + yr) = (x + step a (2 * yl - xl) (2 * y - x) (2 * yr - xr)) / 2.
Proof. intros a x xl xr yl y yr ->. unfold step. field. Qed.
