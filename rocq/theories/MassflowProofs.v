(** Lemmas about the mass flow boundary. *)
From Coq Require Import Reals Lra Psatz.
From Verif Require Import FluxModel MassflowModel.
Local Open Scope R_scope.

(** The mass components: conserved density and its flux, the momentum. *)
Notation mass_flux := (HllFlux mstate unit (fun s _ => m_density s) (fun s _ => m_momentum s)).

Lemma signals_equal theta rho a uL uR : 0 < rho -> 0 < a ->
  MixSignals theta (mkM rho (rho * uL) a) (mkM rho (rho * uR) a) =
  (Rmin (uL - a) ((uL + uR) / 2 - theta * sqrt (a * a + (uR - uL) * (uR - uL) / 8)),
   Rmax ((uL + uR) / 2 + theta * sqrt (a * a + (uR - uL) * (uR - uL) / 8)) (uR + a)).
Proof.
  intros Hr Ha. unfold MixSignals. cbn [m_density m_momentum m_speed_of_sound].
  pose proof (sqrt_lt_R0 rho Hr) as S.
  replace (rho * uL / rho) with uL by (field; lra). replace (rho * uR / rho) with uR by (field; lra).
  set (q := sqrt rho) in *. clearbody q.
  replace ((q * uL + q * uR) / (q + q)) with ((uL + uR) / 2) by (field; lra).
  replace ((q * a * a + q * a * a) / (q + q) + / 2 * (q * q) / ((q + q) * (q + q)) * (uR - uL) * (uR - uL))
    with (a * a + (uR - uL) * (uR - uL) / 8) by (field; lra).
  reflexivity.
Qed.

Lemma roe_sound a x : 0 < a -> 0 <= x -> sqrt (a * a + x * x / 8) <= a + x / 2.
Proof.
  intros Ha Hx. rewrite <- (sqrt_square (a + x / 2)) by lra. apply sqrt_le_1_alt. nra.
Qed.

(** Diverging velocities: the signals are those of the outer characteristics. *)
Lemma signals_diverging theta rho a uL uR : 0 < rho -> 0 < a -> 0 <= theta <= 1 -> uL <= uR ->
  MixSignals theta (mkM rho (rho * uL) a) (mkM rho (rho * uR) a) = (uL - a, uR + a).
Proof.
  intros Hr Ha Ht Hu. rewrite signals_equal by assumption.
  pose proof (roe_sound a (uR - uL) Ha ltac:(lra)) as B.
  pose proof (sqrt_pos (a * a + (uR - uL) * (uR - uL) / 8)) as P.
  set (A := sqrt (a * a + (uR - uL) * (uR - uL) / 8)) in *. clearbody A.
  assert (theta * A <= A) by nra.
  f_equal; [apply Rmin_left; lra | apply Rmax_right; lra].
Qed.

Lemma signals_order theta rho a uL uR : 0 < rho -> 0 < a -> uL <= uR ->
  0 <= theta <= 1 -> 0 < HllDs mstate (MixSignals theta) (mkM rho (rho * uL) a) (mkM rho (rho * uR) a).
Proof.
  intros Hr Ha Hu Ht. unfold HllDs. rewrite signals_diverging by assumption. cbn [fst snd].
  pose proof (Rmax_r 0 (uR + a)). pose proof (Rmin_r 0 (uL - a)). lra.
Qed.

Lemma diverging_flux theta rho a uL uR : 0 < rho -> 0 < a -> 0 <= theta <= 1 -> uL <= uR ->
  mass_flux (MixSignals theta) (mkM rho (rho * uL) a) (mkM rho (rho * uR) a) tt =
  rho * ((Rmax 0 (uR + a) * uL - Rmin 0 (uL - a) * uR) / (Rmax 0 (uR + a) - Rmin 0 (uL - a))).
Proof.
  intros Hr Ha Ht Hu. unfold HllFlux. rewrite signals_diverging by assumption.
  cbn [fst snd m_density m_momentum].
  assert (Rmax 0 (uR + a) - Rmin 0 (uL - a) <> 0) as N.
  { pose proof (Rmax_r 0 (uR + a)). pose proof (Rmin_r 0 (uL - a)). lra. }
  field. assumption.
Qed.

Lemma mach_velocity rho mom a : 0 < rho -> 0 < a -> mom = rho * (mom / rho / a * a).
Proof. intros. field. lra. Qed.

Lemma side0_flux theta rho a mom req area : 0 < rho -> 0 < a -> 0 <= theta <= 1 -> area <> 0 ->
  let m := req / area / (rho * a) in
  let u := mom / rho / a in
  -1 < m -> m <= u ->
  exists b, ComputeBoundaryState req area true (mkM rho mom a) = Some b /\ m_density b = rho /\ m_speed_of_sound b = a /\
    0 < HllDs mstate (MixSignals theta) b (mkM rho mom a) /\
    mass_flux (MixSignals theta) b (mkM rho mom a) tt = req / area.
Proof.
  intros Hr Ha Ht Har m u Hm Hmu.
  assert (req / area = rho * a * m) as E by (unfold m; field; repeat split; lra).
  unfold ComputeBoundaryState. cbn [m_density m_momentum m_speed_of_sound]. fold m. fold u.
  assert (mom = rho * (u * a)) as Em by (unfold u; apply mach_velocity; assumption).
  assert (exists v, BoundaryMach true m u = Some v /\ v <= u /\
    ((m = u /\ v = u) \/ (m < u /\ 1 <= m /\ v = m) \/ (m < u /\ m < 1 /\ v = (2 * m + u * (m - 1)) / (m + 1)))) as (v & Ev & Hv & C).
  { unfold BoundaryMach. destruct (Req_EM_T m u) as [Q | Q]; [exists u; split; [reflexivity|]; split; [lra | left; split; [assumption | reflexivity]]|].
    destruct (Rlt_dec m u) as [L | L]; [|lra]. destruct (Rle_dec 1 m) as [L1 | L1].
    - exists m. split; [reflexivity|]. split; [lra|]. right; left. repeat split; lra.
    - destruct (Rlt_dec (-1) m) as [L2 | L2]; [|lra]. eexists. split; [reflexivity|]. split; [|right; right; repeat split; lra].
      apply Rmult_le_reg_r with (m + 1); [lra|]. unfold Rdiv. rewrite Rmult_assoc, Rinv_l by lra. nra. }
  rewrite Ev. eexists. split; [reflexivity|]. split; [reflexivity|]. split; [reflexivity|].
  rewrite Em. split; [apply signals_order; try assumption; nra|].
  rewrite diverging_flux by (try assumption; nra). rewrite E, Rmult_assoc. f_equal.
  assert (v * a <= u * a) by nra.
  destruct C as [[-> ->] | [(L & L1 & ->) | (L & L1 & Cv)]].
  - pose proof (Rmax_r 0 (u * a + a)). pose proof (Rmin_r 0 (u * a - a)). field. lra.
  - rewrite (Rmin_left 0 (m * a - a)) by nra. rewrite (Rmax_right 0 (u * a + a)) by nra. field. nra.
  - assert (v < 1) as V1.
    { rewrite Cv. apply Rmult_lt_reg_r with (m + 1); [lra|]. unfold Rdiv. rewrite Rmult_assoc, Rinv_l by lra. nra. }
    rewrite (Rmin_right 0 (v * a - a)) by nra. rewrite (Rmax_right 0 (u * a + a)) by nra.
    assert (v * (m + 1) = 2 * m + u * (m - 1)) as Q by (rewrite Cv; field; lra).
    apply Rmult_eq_reg_r with (u * a + a - (v * a - a)); [|nra].
    unfold Rdiv. rewrite Rmult_assoc, Rinv_l by nra. nra.
Qed.

Lemma side1_flux theta rho a mom req area : 0 < rho -> 0 < a -> 0 <= theta <= 1 -> area <> 0 ->
  let m := req / area / (rho * a) in
  let u := mom / rho / a in
  m < 1 -> u <= m ->
  exists b, ComputeBoundaryState req area false (mkM rho mom a) = Some b /\ m_density b = rho /\ m_speed_of_sound b = a /\
    0 < HllDs mstate (MixSignals theta) (mkM rho mom a) b /\
    mass_flux (MixSignals theta) (mkM rho mom a) b tt = req / area.
Proof.
  intros Hr Ha Ht Har m u Hm Hmu.
  assert (req / area = rho * a * m) as E by (unfold m; field; repeat split; lra).
  unfold ComputeBoundaryState. cbn [m_density m_momentum m_speed_of_sound]. fold m. fold u.
  assert (mom = rho * (u * a)) as Em by (unfold u; apply mach_velocity; assumption).
  assert (exists v, BoundaryMach false m u = Some v /\ u <= v /\
    ((m = u /\ v = u) \/ (u < m /\ m <= -1 /\ v = m) \/ (u < m /\ -1 < m /\ v = (2 * m - u * (m + 1)) / (1 - m)))) as (v & Ev & Hv & C).
  { unfold BoundaryMach. destruct (Req_EM_T m u) as [Q | Q]; [exists u; split; [reflexivity|]; split; [lra | left; split; [assumption | reflexivity]]|].
    destruct (Rlt_dec u m) as [L | L]; [|lra]. destruct (Rle_dec 1 m) as [L1 | L1]; [lra|].
    destruct (Rlt_dec (-1) m) as [L2 | L2].
    - eexists. split; [reflexivity|]. split; [|right; right; repeat split; lra].
      apply Rmult_le_reg_r with (1 - m); [lra|]. unfold Rdiv. rewrite (Rmult_assoc (2 * m - u * (m + 1))), Rinv_l by lra. nra.
    - exists m. split; [reflexivity|]. split; [lra|]. right; left. repeat split; lra. }
  rewrite Ev. eexists. split; [reflexivity|]. split; [reflexivity|]. split; [reflexivity|].
  rewrite Em. split; [apply signals_order; try assumption; nra|].
  rewrite diverging_flux by (try assumption; nra). rewrite E, Rmult_assoc. f_equal.
  assert (u * a <= v * a) by nra.
  destruct C as [[-> ->] | [(L & L1 & ->) | (L & L1 & Cv)]].
  - pose proof (Rmax_r 0 (u * a + a)). pose proof (Rmin_r 0 (u * a - a)). field. lra.
  - rewrite (Rmax_left 0 (m * a + a)) by nra. rewrite (Rmin_right 0 (u * a - a)) by nra. field. nra.
  - assert (-1 < v) as V1.
    { rewrite Cv. apply Rmult_lt_reg_r with (1 - m); [lra|]. unfold Rdiv. rewrite (Rmult_assoc (2 * m - u * (m + 1))), Rinv_l by lra. nra. }
    rewrite (Rmax_right 0 (v * a + a)) by nra. rewrite (Rmin_right 0 (u * a - a)) by nra.
    assert (v * (1 - m) = 2 * m - u * (m + 1)) as Q by (rewrite Cv; field; lra).
    apply Rmult_eq_reg_r with (v * a + a - (u * a - a)); [|nra].
    unfold Rdiv. rewrite Rmult_assoc, Rinv_l by nra. nra.
Qed.
