(** Lemmas for C133: the plenum in front of the turbine. *)
From Coq Require Import List Reals ZArith Bool Lia Lra Psatz.
From Verif Require Import GasModel GasSpec NewtonModel RiemannModel RiemannProofs2 BoundaryModel TurbineModel TurbineSpec TurbineProofs4.
Import ListNotations.
Local Open Scope R_scope.

(** the velocity of a mixture in one dimension *)
Definition mix_speed (q : mixture) : R := nth 0 (y_momentum q) 0 / y_density q.

Section Flush.
Variables (eq : mix_gas) (pf Tf : R) (q : mixture).
Hypothesis Hg : 1 < mgamma eq.
Hypothesis HM : Msq eq = 1.
Hypothesis Hr : 0 < y_density q.
Hypothesis Hp : 0 < y_pressure q.
Hypothesis Hpf : 0 < pf.
Hypothesis HTf : 0 < Tf.
Let g := mgamma eq.
Let rho := y_density q.
Let p := y_pressure q.
Let u := mix_speed q.
Let ratio := Rpower (pf / p) (1 / g).
Let Tr := pf / p / ratio.

Lemma flush_pr : 0 < pf / p.
Proof. apply Rdiv_lt_0_compat; assumption. Qed.

Lemma flush_ratio : 0 < ratio /\ Rpower ratio g = pf / p.
Proof.
  split; [apply Rpower_pos|]. unfold ratio. rewrite Rpower_mult. unfold g in *. replace (1 / mgamma eq * mgamma eq) with 1 by (field; lra).
  apply Rpower_1, flush_pr.
Qed.

Lemma from_cons_pressure r x e sp sc : 0 < r -> y_pressure (MixFromCons eq r [x * r] (e * mix_inv eq + 1 / 2 * r * (x * x)) sp sc) = e.
Proof.
  intros H. unfold MixFromCons, KineticEnergy, squaredNorm, mix_inv. cbn [y_pressure dot]. rewrite HM. field. split; lra.
Qed.

Lemma isentrope_ratio x y s : 0 < x -> 0 < s -> isentrope g (x * s) y = y / (Rpower x g * Rpower s g).
Proof. intros Hx Hs. unfold isentrope. rewrite Rpower_mult_distr by assumption. reflexivity. Qed.

Lemma same_entropy : isentrope g (rho * ratio) pf = isentrope g rho p.
Proof.
  destruct flush_ratio as [R1 R2]. rewrite isentrope_ratio by assumption. rewrite R2. unfold isentrope.
  pose proof (Rpower_pos rho g). unfold p in *. field. repeat split; try lra.
Qed.

Lemma fractions_scaled s l : 0 < s -> same_fractions (rho * s) (map (fun x => x * s) l) rho l.
Proof.
  intros H. split; [apply map_length|]. intros k. replace 0 with (0 * s) at 1 by ring. rewrite (map_nth (fun x => x * s)).
  unfold rho in *. field. split; lra.
Qed.

(** the tube pressure is at least that of the plenum *)
Lemma flush_out : pf <= p -> 0 < u ->
  let r := FlushState eq pf Tf q in
  y_pressure r = pf /\ isentrope g (y_density r) pf = isentrope g rho p /\ mix_speed r = u /\
  same_fractions (y_density r) (y_species r) rho (y_species q) /\ y_scalars r = y_scalars q /\ 0 < y_density r.
Proof.
  intros H Hu r. destruct flush_ratio as [R1 R2].
  unfold r, FlushState. cbv zeta. fold g rho p. fold ratio. fold u. destruct (Rlt_dec p pf) as [L|_]; [lra|].
  destruct (Rle_dec (nth 0 (y_momentum q) 0 / rho) 0) as [N|_]; [exfalso; revert N; apply Rlt_not_le; exact Hu|].
  set (m := nth 0 (y_momentum q) 0).
  assert (m = u * rho) as Em by (unfold u, mix_speed, m, rho in *; field; lra).
  split; [|split; [|split; [|split; [|split]]]].
  - assert (forall sp sc, MixFromCons eq (rho * ratio) [m * ratio] (pf * mix_inv eq + 1 / 2 * rho * (m / rho * (m / rho)) * ratio) sp sc =
            MixFromCons eq (rho * ratio) [u * (rho * ratio)] (pf * mix_inv eq + 1 / 2 * (rho * ratio) * (u * u)) sp sc) as ->.
    { intros sp sc. rewrite Em. replace (u * rho * ratio) with (u * (rho * ratio)) by ring. f_equal. unfold rho in *. field. lra. }
    apply from_cons_pressure. apply Rmult_lt_0_compat; assumption.
  - apply same_entropy.
  - unfold mix_speed, MixFromCons. cbn [y_momentum y_density nth]. rewrite Em. unfold rho in *. field. split; lra.
  - apply fractions_scaled. exact R1.
  - reflexivity.
  - apply Rmult_lt_0_compat; assumption.
Qed.

Lemma flush_rest : pf <= p -> u <= 0 ->
  let r := FlushState eq pf Tf q in
  y_pressure r = pf /\ isentrope g (y_density r) pf = isentrope g rho p /\ mix_speed r = 0 /\
  same_fractions (y_density r) (y_species r) rho (y_species q) /\ y_scalars r = y_scalars q /\ 0 < y_density r.
Proof.
  intros H Hu r. destruct flush_ratio as [R1 R2].
  unfold r, FlushState. cbv zeta. fold g rho p. fold ratio. destruct (Rlt_dec p pf) as [L|_]; [lra|].
  destruct (Rle_dec (nth 0 (y_momentum q) 0 / rho) 0) as [_|N]; [|exfalso; apply N; exact Hu].
  split; [|split; [|split; [|split; [|split]]]].
  - assert (forall x sp sc, MixFromCons eq (rho * ratio) [0] (pf * mix_inv eq + (1 / 2 * rho * (x * x) - 1 / 2 * rho * x * x) * ratio) sp sc =
            MixFromCons eq (rho * ratio) [0 * (rho * ratio)] (pf * mix_inv eq + 1 / 2 * (rho * ratio) * (0 * 0)) sp sc) as ->.
    { intros x sp sc. rewrite !Rmult_0_l. f_equal. ring. }
    apply from_cons_pressure. apply Rmult_lt_0_compat; assumption.
  - apply same_entropy.
  - unfold mix_speed, MixFromCons. cbn [y_momentum y_density nth]. unfold Rdiv. ring.
  - apply fractions_scaled. exact R1.
  - reflexivity.
  - apply Rmult_lt_0_compat; assumption.
Qed.

(** the gas flows towards the plenum against a higher pressure *)
Lemma flush_against : p < pf -> 0 < u ->
  let r := FlushState eq pf Tf q in
  let height := 2 * (g / (g - 1)) * (pf / (rho * ratio) - p / rho) in
  y_pressure r = pf /\ isentrope g (y_density r) pf = isentrope g rho p /\ 0 <= mix_speed r /\
  (height <= u * u -> total_enthalpy g (y_density r) (mix_speed r * mix_speed r) pf = total_enthalpy g rho (u * u) p) /\
  (u * u <= height -> mix_speed r = 0) /\ y_density r = rho * ratio /\
  same_fractions (y_density r) (y_species r) rho (y_species q) /\ y_scalars r = y_scalars q /\ 0 < y_density r.
Proof.
  intros H Hu r height. destruct flush_ratio as [R1 R2].
  unfold r, FlushState. cbv zeta. fold g rho p. fold ratio. destruct (Rlt_dec p pf) as [_|N]; [|contradiction].
  destruct (Rle_dec (nth 0 (y_momentum q) 0 / rho) 0) as [N|_]; [exfalso; revert N; apply Rlt_not_le; exact Hu|].
  change (nth 0 (y_momentum q) 0 / rho) with u. fold Tr. rewrite HM. replace (1 / 1) with 1 by field. rewrite Rmult_1_r.
  assert (0 < rho * ratio) as RR by (apply Rmult_lt_0_compat; assumption).
  assert (2 * (g * mix_inv eq) * (Tr - 1) * (p / rho) = height) as ->.
  { unfold height, Tr, mix_inv. fold g. unfold rho, p, g in *. field. repeat split; lra. }
  set (x := sqrt (Rmax 0 (u * u - height))).
  assert (mix_speed (MixFromCons eq (rho * ratio) [x * (rho * ratio)] (pf * mix_inv eq + 1 / 2 * (rho * ratio) * (x * x))
            (map (fun s => s * ratio) (y_species q)) (y_scalars q)) = x) as Sx.
  { unfold mix_speed, MixFromCons. cbn [y_momentum y_density nth]. field. split; [clear - R1; lra | clear - Hr; unfold rho; lra]. }
  rewrite Sx. split; [apply from_cons_pressure; exact RR|]. split; [apply same_entropy|]. split; [apply sqrt_pos|].
  split; [|split; [|split; [reflexivity|split; [apply fractions_scaled; exact R1 | split; [reflexivity | exact RR]]]]].
  - intros Hh. assert (x * x = u * u - height) as Ex by (unfold x; rewrite Rmax_right by lra; apply sqrt_sqrt; lra).
    cbn [MixFromCons y_density]. unfold total_enthalpy. rewrite Ex. unfold height. unfold rho, p, g in *. field. repeat split; lra.
  - intros Hh. unfold x. rewrite Rmax_left by lra. apply sqrt_0.
Qed.

(** gas of the plenum flows into the tube *)
Lemma flush_in : p < pf -> u <= 0 ->
  let r := FlushState eq pf Tf q in
  y_pressure r = p /\ isentrope g (y_density r) p = isentrope g (pf / Tf) pf /\ mix_speed r <= 0 /\
  y_density r = pf / Tf / ratio /\ 1 < Tr /\ p / y_density r = Tf / Tr /\
  mix_speed r * mix_speed r = 2 * (g / (g - 1)) * (Tr - 1) * (p / rho) /\
  same_fractions (y_density r) (y_species r) rho (y_species q) /\ y_scalars r = y_scalars q /\ 0 < y_density r.
Proof.
  intros H Hu r. destruct flush_ratio as [R1 R2].
  unfold r, FlushState. cbv zeta. fold g rho p. fold ratio. destruct (Rlt_dec p pf) as [_|N]; [|contradiction].
  destruct (Rle_dec (nth 0 (y_momentum q) 0 / rho) 0) as [_|N]; [|exfalso; apply N; exact Hu].
  fold Tr. rewrite HM. replace (1 / 1) with 1 by field. rewrite Rmult_1_r.
  assert (0 < pf / Tf) as RF by (apply Rdiv_lt_0_compat; assumption).
  assert (0 < pf / Tf / ratio) as RR by (apply Rdiv_lt_0_compat; assumption).
  assert (1 < Tr) as T1.
  { unfold Tr. assert (1 < pf / p) as L by (apply (Rmult_lt_reg_r p); [exact Hp|]; unfold Rdiv; rewrite Rmult_assoc, Rinv_l; unfold p in *; lra).
    assert (ratio < pf / p).
    { rewrite <- (Rpower_1 (pf / p)) by lra. unfold ratio. apply Rpower_lt; [exact L|].
      apply (Rmult_lt_reg_r g); [unfold g; lra|]. unfold Rdiv. rewrite Rmult_assoc, Rinv_l; unfold g; lra. }
    apply (Rmult_lt_reg_r ratio); [exact R1|]. unfold Rdiv at 1. rewrite (Rmult_assoc _ (/ ratio)), Rinv_l by lra. lra. }
  assert (0 <= 2 * (g / (g - 1)) * (Tr - 1) * (p / rho)) as NN.
  { apply Rmult_le_pos; [apply Rmult_le_pos; [|lra]|apply Rlt_le, Rdiv_lt_0_compat; assumption].
    apply Rmult_le_pos; [lra|]. apply Rlt_le, Rdiv_lt_0_compat; unfold g; lra. }
  assert (2 * (g * mix_inv eq) * (Tr - 1) * (p / rho) = 2 * (g / (g - 1)) * (Tr - 1) * (p / rho)) as ->.
  { unfold mix_inv. fold g. unfold Rdiv. rewrite Rmult_1_l. reflexivity. }
  set (h := 2 * (g / (g - 1)) * (Tr - 1) * (p / rho)) in *.
  set (x := - sqrt (Rmax 0 h)). assert (x * x = h) as Ex.
  { unfold x. rewrite Rmax_right by exact NN. replace (- sqrt h * - sqrt h) with (sqrt h * sqrt h) by ring. apply sqrt_sqrt. exact NN. }
  set (r' := pf / Tf / ratio) in *.
  assert (forall sp sc, mix_speed (MixFromCons eq r' [x * r'] (p * mix_inv eq + 1 / 2 * r' * (x * x)) sp sc) = x) as Sx.
  { intros sp sc. unfold mix_speed, MixFromCons. cbn [y_momentum y_density nth]. field. lra. }
  rewrite Sx. split; [apply from_cons_pressure; exact RR|]. split; [|split; [|split; [reflexivity|split; [exact T1|split; [|split; [exact Ex|split; [|split; [reflexivity|exact RR]]]]]]]].
  - cbn [MixFromCons y_density]. unfold isentrope.
    assert (Rpower r' g * (pf / p) = Rpower (pf / Tf) g) as E.
    { rewrite <- R2, Rpower_mult_distr by assumption. f_equal. unfold r'. field. split; lra. }
    rewrite <- E. pose proof (Rpower_pos r' g). unfold p in *. field. repeat split; lra.
  - unfold x. pose proof (sqrt_pos (Rmax 0 h)). lra.
  - cbn [MixFromCons y_density]. unfold r', Tr. unfold p in *. field. repeat split; lra.
  - cbn [MixFromCons y_density y_species]. split; [apply map_length|]. intros k.
    replace 0 with (0 * r' / rho) at 1 by (unfold Rdiv; ring). rewrite (map_nth (fun s => s * r' / rho)).
    unfold rho in *. field. split; lra.
Qed.
End Flush.
