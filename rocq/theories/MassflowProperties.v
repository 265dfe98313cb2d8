(** C70 (mass flow boundary) and C72 (signal speeds of the ideal gas mixture). *)
From Coq Require Import Reals Lra Psatz.
From Verif Require Import FluxModel MassflowModel MassflowProofs.
Local Open Scope R_scope.

(** ** C70: the lower boundary.  The HLLE mass flux between the boundary state and the inner state is the
    required mass flow per area, with the scalar and with the vectorised signal speeds, if the required
    flow is not faster than the inner one (and not faster than sound out of the domain).  Missing: a
    required flow that compresses, see [C70_compression_refuted]. *)
Theorem C70_lower_partial :
  forall rho a momentum required area : R, 0 < rho -> 0 < a -> area <> 0 ->
    - (rho * a) < required / area -> required / area <= momentum ->
    let inner := mkM rho momentum a in
    exists boundary, ComputeBoundaryState required area true inner = Some boundary /\
      m_density boundary = rho /\ m_speed_of_sound boundary = a /\
      0 < HllDs mstate MixSignals_scalar boundary inner /\
      HllFlux mstate unit (fun s _ => m_density s) (fun s _ => m_momentum s) MixSignals_scalar boundary inner tt
        = required / area /\
      HllFlux mstate unit (fun s _ => m_density s) (fun s _ => m_momentum s) MixSignals_lane boundary inner tt
        = required / area.
Proof.
  intros rho a mom req area Hr Ha Har H1 H2 inner.
  assert (0 < rho * a) as P by (apply Rmult_lt_0_compat; assumption).
  assert (-1 < req / area / (rho * a)) as M1.
  { apply Rmult_lt_reg_r with (rho * a); [assumption|]. unfold Rdiv at 1. rewrite Rmult_assoc, Rinv_l by lra. lra. }
  assert (req / area / (rho * a) <= mom / rho / a) as M2.
  { apply Rmult_le_reg_r with (rho * a); [assumption|]. unfold Rdiv at 1. rewrite Rmult_assoc, Rinv_l by lra.
    replace (mom / rho / a * (rho * a)) with mom by (field; lra). lra. }
  destruct (side0_flux (1 / 2) rho a mom req area Hr Ha ltac:(lra) Har M1 M2) as (b & E & B1 & B2 & B3 & B4).
  destruct (side0_flux 1 rho a mom req area Hr Ha ltac:(lra) Har M1 M2) as (b' & E' & _ & _ & _ & B4').
  assert (b' = b) as -> by congruence.
  exists b. repeat (split; [assumption|]). assumption.
Qed.
Print Assumptions C70_lower_partial.

(** ** C70: the upper boundary. *)
Theorem C70_upper_partial :
  forall rho a momentum required area : R, 0 < rho -> 0 < a -> area <> 0 ->
    required / area < rho * a -> momentum <= required / area ->
    let inner := mkM rho momentum a in
    exists boundary, ComputeBoundaryState required area false inner = Some boundary /\
      m_density boundary = rho /\ m_speed_of_sound boundary = a /\
      0 < HllDs mstate MixSignals_scalar inner boundary /\
      HllFlux mstate unit (fun s _ => m_density s) (fun s _ => m_momentum s) MixSignals_scalar inner boundary tt
        = required / area /\
      HllFlux mstate unit (fun s _ => m_density s) (fun s _ => m_momentum s) MixSignals_lane inner boundary tt
        = required / area.
Proof.
  intros rho a mom req area Hr Ha Har H1 H2 inner.
  assert (0 < rho * a) as P by (apply Rmult_lt_0_compat; assumption).
  assert (req / area / (rho * a) < 1) as M1.
  { apply Rmult_lt_reg_r with (rho * a); [assumption|]. unfold Rdiv at 1. rewrite Rmult_assoc, Rinv_l by lra. lra. }
  assert (mom / rho / a <= req / area / (rho * a)) as M2.
  { apply Rmult_le_reg_r with (rho * a); [assumption|]. unfold Rdiv at 3. rewrite (Rmult_assoc (req / area)), Rinv_l by lra.
    replace (mom / rho / a * (rho * a)) with mom by (field; lra). lra. }
  destruct (side1_flux (1 / 2) rho a mom req area Hr Ha ltac:(lra) Har M1 M2) as (b & E & B1 & B2 & B3 & B4).
  destruct (side1_flux 1 rho a mom req area Hr Ha ltac:(lra) Har M1 M2) as (b' & E' & _ & _ & _ & B4').
  assert (b' = b) as -> by congruence.
  exists b. repeat (split; [assumption|]). assumption.
Qed.
Print Assumptions C70_upper_partial.

(** Outflow through the lower boundary is reduced from Mach 1/2 to Mach 1/4; the other way round at the upper one. *)
Example C70_example :
  0 < 2 /\ 0 < 3 /\ 4 <> 0 /\ - (2 * 3) < 6 / 4 /\ 6 / 4 <= 3 /\
  ComputeBoundaryState 6 4 true (mkM 2 3 3) = Some (mkM 2 (2 * ((2 * (1 / 4) + 1 / 2 * (1 / 4 - 1)) / (1 / 4 + 1) * 3)) 3) /\
  6 / 4 < 2 * 3 /\ 1 <= 6 / 4.
Proof.
  repeat (split; [lra|]). split; [|split; lra].
  unfold ComputeBoundaryState. cbn [m_density m_momentum m_speed_of_sound].
  replace (6 / 4 / (2 * 3)) with (1 / 4) by field. replace (3 / 2 / 3) with (1 / 2) by field. unfold BoundaryMach.
  destruct (Req_EM_T (1 / 4) (1 / 2)); [lra|]. destruct (Rlt_dec (1 / 4) (1 / 2)); [|lra].
  destruct (Rle_dec 1 (1 / 4)); [lra|]. destruct (Rlt_dec (-1) (1 / 4)); [reflexivity | lra].
Qed.

(** ** C70: the boundary state always exists: no square root of a negative number is taken. *)
Theorem C70_defined :
  forall (required area : R) (lower : bool) (inner : mstate),
    exists boundary, ComputeBoundaryState required area lower inner = Some boundary.
Proof.
  intros req area lower inner. unfold ComputeBoundaryState.
  set (m := req / area / (m_density inner * m_speed_of_sound inner)).
  set (u := m_momentum inner / m_density inner / m_speed_of_sound inner). clearbody m u.
  assert (exists v, BoundaryMach lower m u = Some v) as [v ->].
  { unfold BoundaryMach. destruct lower; destruct (Req_EM_T m u) as [Q | Q]; try (eexists; reflexivity).
    - destruct (Rlt_dec m u) as [L | L].
      + destruct (Rle_dec 1 m); [eexists; reflexivity|]. destruct (Rlt_dec (-1) m); eexists; reflexivity.
      + destruct (Rle_dec (2 - m) u); [eexists; reflexivity|]. cbv zeta.
        pose proof (Rle_0_sqr (u + 1)) as P. unfold Rsqr in P.
        destruct (Rlt_dec (4 * m + (u - 1) * (u - 1)) 0) as [C | C]; [exfalso; lra | eexists; reflexivity].
    - destruct (Rlt_dec u m) as [L | L].
      + destruct (Rle_dec 1 m); [eexists; reflexivity|]. destruct (Rlt_dec (-1) m); eexists; reflexivity.
      + destruct (Rle_dec m (- (2 - u))); [eexists; reflexivity|]. cbv zeta.
        pose proof (Rle_0_sqr (u - 1)) as P. unfold Rsqr in P.
        destruct (Rlt_dec ((u + 1) * (u + 1) - 4 * m) 0) as [C | C]; [exfalso; lra | eexists; reflexivity]. }
  eexists. reflexivity.
Qed.
Print Assumptions C70_defined.

(** ** C70: if the required flow is faster than the inner one the mass flux is not the required one: gas at
    rest (density 1, speed of sound 1), required flow 3/4 into the domain. *)
Theorem C70_compression_refuted :
  exists inner boundary : mstate,
    m_density inner = 1 /\ m_speed_of_sound inner = 1 /\ m_momentum inner = 0 /\
    ComputeBoundaryState (3 / 4) 1 true inner = Some boundary /\
    HllFlux mstate unit (fun s _ => m_density s) (fun s _ => m_momentum s) MixSignals_scalar boundary inner tt > 3 / 4 /\
    HllFlux mstate unit (fun s _ => m_density s) (fun s _ => m_momentum s) MixSignals_lane boundary inner tt < 3 / 4.
Proof.
  exists (mkM 1 0 1), (mkM 1 (1 * 1) 1). split; [reflexivity|]. split; [reflexivity|]. split; [reflexivity|]. split.
  - unfold ComputeBoundaryState. cbn [m_density m_momentum m_speed_of_sound].
    replace (3 / 4 / 1 / (1 * 1)) with (3 / 4) by field. replace (0 / 1 / 1) with 0 by field. unfold BoundaryMach.
    destruct (Req_EM_T (3 / 4) 0); [lra|]. destruct (Rlt_dec (3 / 4) 0); [lra|].
    destruct (Rle_dec (2 - 3 / 4) 0); [lra|]. cbv zeta.
    destruct (Rlt_dec _ 0) as [C | C]; [lra|]. do 2 f_equal.
    replace (4 * (3 / 4) + (0 - 1) * (0 - 1)) with (2 * 2) by field. rewrite sqrt_square by lra. lra.
  - replace (mkM 1 0 1) with (mkM 1 (1 * 0) 1) by (f_equal; lra).
    unfold HllFlux, MixSignals_scalar, MixSignals_lane. rewrite !signals_equal by lra. cbn [fst snd m_density m_momentum].
    replace (1 * 1 + (0 - 1) * (0 - 1) / 8) with (9 / 8) by field.
    assert (1 < sqrt (9 / 8)) as A1 by (apply Rlt_le_trans with (sqrt (1.05 * 1.05)); [rewrite sqrt_square; lra | apply sqrt_le_1_alt; lra]).
    assert (sqrt (9 / 8) < 1.1) as A2 by (apply Rle_lt_trans with (sqrt (1.07 * 1.07)); [apply sqrt_le_1_alt; lra | rewrite sqrt_square; lra]).
    set (A := sqrt (9 / 8)) in *. clearbody A. split.
    + rewrite (Rmin_right (1 - 1)) by lra. rewrite (Rmin_right 0) by lra. rewrite (Rmax_left _ (0 + 1)) by lra.
      rewrite (Rmax_right 0) by lra.
      match goal with |- ?f > _ => replace f with ((1 + A) / (2 * A)) by (field; lra) end.
      apply Rlt_gt, Rmult_lt_reg_r with (2 * A); [lra|].
      replace ((1 + A) / (2 * A) * (2 * A)) with (1 + A) by (field; lra). lra.
    + rewrite (Rmin_right (1 - 1)) by lra. rewrite (Rmin_right 0) by lra. rewrite (Rmax_left _ (0 + 1)) by lra.
      rewrite (Rmax_right 0) by lra.
      match goal with |- ?f < _ => replace f with ((1 / 2 + A) / (2 * A)) by (field; lra) end.
      apply Rmult_lt_reg_r with (2 * A); [lra|].
      replace ((1 / 2 + A) / (2 * A) * (2 * A)) with (1 / 2 + A) by (field; lra). lra.
Qed.
Print Assumptions C70_compression_refuted.

(** ** C70: mirror symmetry of the two sides.  Mirroring the flow at the boundary (all velocities change
    their sign, lower and upper exchange) mirrors the boundary state, if the required flow does not compress. *)
Theorem C70_mirror_partial :
  forall (required area rho a momentum : R), 0 < rho -> 0 < a -> area <> 0 ->
    required / area <= momentum ->
    exists v, ComputeBoundaryState required area true (mkM rho momentum a) = Some (mkM rho v a) /\
              ComputeBoundaryState (- required) area false (mkM rho (- momentum) a) = Some (mkM rho (- v) a).
Proof.
  intros req area rho a mom Hr Ha Har H.
  assert (0 < rho * a) as P by (apply Rmult_lt_0_compat; assumption).
  unfold ComputeBoundaryState. cbn [m_density m_momentum m_speed_of_sound].
  replace (- req / area / (rho * a)) with (- (req / area / (rho * a))) by (field; lra).
  replace (- mom / rho / a) with (- (mom / rho / a)) by (field; lra).
  assert (req / area / (rho * a) <= mom / rho / a) as M.
  { apply Rmult_le_reg_r with (rho * a); [assumption|]. unfold Rdiv at 1. rewrite Rmult_assoc, Rinv_l by lra.
    replace (mom / rho / a * (rho * a)) with mom by (field; lra). lra. }
  set (m := req / area / (rho * a)) in *. set (u := mom / rho / a) in *. clearbody m u.
  assert (exists v, BoundaryMach true m u = Some v /\ BoundaryMach false (- m) (- u) = Some (- v)) as (v & -> & ->).
  { unfold BoundaryMach.
    destruct (Req_EM_T m u) as [Q | Q]; destruct (Req_EM_T (- m) (- u)) as [Q' | Q']; try lra; [exists u; split; reflexivity|].
    destruct (Rlt_dec m u) as [L | L]; [|lra]. destruct (Rlt_dec (- u) (- m)) as [L' | L']; [|lra].
    destruct (Rle_dec 1 m) as [A | A]; destruct (Rle_dec 1 (- m)) as [A' | A']; try lra.
    - exists m. destruct (Rlt_dec (-1) (- m)); [lra|]. split; reflexivity.
    - exists (-1). destruct (Rlt_dec (-1) m); [lra|]. split; [reflexivity | f_equal; lra].
    - destruct (Rlt_dec (-1) m); [|lra]. destruct (Rlt_dec (-1) (- m)); [|lra]. eexists. split; [reflexivity|].
      f_equal. field. lra. }
  exists (rho * (v * a)). split; [reflexivity|]. do 2 f_equal. lra.
Qed.
Print Assumptions C70_mirror_partial.

(** ** C70: the symmetry fails for a compressing flow (the sign of the inner velocity in the test for a
    supersonic boundary at the upper side is wrong): the gas leaves with Mach number 1/2, the required flow
    enters with Mach number 2. *)
Theorem C70_mirror_refuted :
  exists (required area rho a momentum v w : R), 0 < rho /\ 0 < a /\ area <> 0 /\
    ComputeBoundaryState required area true (mkM rho momentum a) = Some (mkM rho v a) /\
    ComputeBoundaryState (- required) area false (mkM rho (- momentum) a) = Some (mkM rho w a) /\
    w <> - v.
Proof.
  exists 2, 1, 1, 1, (- (1 / 2)), (sqrt (4 * 2 + (- (1 / 2) - 1) * (- (1 / 2) - 1)) - 1), (- (2)).
  assert (sqrt (4 * 2 + (- (1 / 2) - 1) * (- (1 / 2) - 1)) > 3.1) as S.
  { apply Rlt_gt, Rlt_le_trans with (sqrt (3.15 * 3.15)); [rewrite sqrt_square; lra | apply sqrt_le_1_alt; lra]. }
  split; [lra|]. split; [lra|]. split; [lra|]. split; [|split; [|lra]].
  - unfold ComputeBoundaryState. cbn [m_density m_momentum m_speed_of_sound].
    replace (2 / 1 / (1 * 1)) with 2 by field. replace (- (1 / 2) / 1 / 1) with (- (1 / 2)) by field. unfold BoundaryMach.
    destruct (Req_EM_T 2 (- (1 / 2))); [lra|]. destruct (Rlt_dec 2 (- (1 / 2))); [lra|].
    destruct (Rle_dec (2 - 2) (- (1 / 2))); [lra|]. cbv zeta. destruct (Rlt_dec _ 0); [lra|].
    do 2 f_equal. lra.
  - unfold ComputeBoundaryState. cbn [m_density m_momentum m_speed_of_sound].
    replace (- (2) / 1 / (1 * 1)) with (- (2)) by field. replace (- - (1 / 2) / 1 / 1) with (1 / 2) by field. unfold BoundaryMach.
    destruct (Req_EM_T (- (2)) (1 / 2)); [lra|]. destruct (Rlt_dec (1 / 2) (- (2))); [lra|].
    destruct (Rle_dec (- (2)) (- (2 - 1 / 2))); [|lra]. do 2 f_equal. lra.
Qed.
Print Assumptions C70_mirror_refuted.

(** ** C72: the interval of the vectorised signal speeds of the mixture contains the interval of the scalar
    ones, so the vectorised flux is at least as dissipative; the two agree if the gas does not collide
    (equal density and speed of sound).  Missing: equality in general, see [C72_signals_refuted]. *)
Theorem C72_signals_partial :
  forall l r : mstate,
    fst (MixSignals_lane l r) <= fst (MixSignals_scalar l r) /\
    snd (MixSignals_scalar l r) <= snd (MixSignals_lane l r) /\
    (forall rho a uL uR, 0 < rho -> 0 < a -> uL <= uR ->
       l = mkM rho (rho * uL) a -> r = mkM rho (rho * uR) a -> MixSignals_lane l r = MixSignals_scalar l r).
Proof.
  intros l r. unfold MixSignals_lane, MixSignals_scalar. split; [|split].
  - unfold MixSignals. cbv zeta. cbn [fst].
    match goal with |- context [1 * sqrt ?x] => pose proof (sqrt_pos x) as P; set (A := sqrt x) in * end. clearbody A.
    match goal with |- Rmin ?x ?y <= Rmin ?x ?z => apply Rle_min_compat_l; lra end.
  - unfold MixSignals. cbv zeta. cbn [snd].
    match goal with |- context [1 * sqrt ?x] => pose proof (sqrt_pos x) as P; set (A := sqrt x) in * end. clearbody A.
    match goal with |- Rmax ?x ?y <= Rmax ?z ?y => apply Rle_max_compat_r; lra end.
  - intros rho a uL uR Hr Ha Hu -> ->. rewrite !signals_diverging by lra. reflexivity.
Qed.
Print Assumptions C72_signals_partial.

(** Non-trivial case: a diverging flow. *)
Example C72_example : MixSignals_scalar (mkM 2 (2 * -1) 3) (mkM 2 (2 * 1) 3) = (-1 - 3, 1 + 3).
Proof. apply signals_diverging; lra. Qed.

(** ** C72: for colliding gas the scalar and the vectorised version return different signal speeds. *)
Theorem C72_signals_refuted :
  exists l r : mstate, m_density l = 1 /\ m_density r = 1 /\ m_speed_of_sound l = 1 /\ m_speed_of_sound r = 1 /\
    fst (MixSignals_lane l r) < fst (MixSignals_scalar l r) /\
    snd (MixSignals_scalar l r) < snd (MixSignals_lane l r).
Proof.
  exists (mkM 1 (1 * 2) 1), (mkM 1 (1 * -2) 1). do 4 (split; [reflexivity|]).
  unfold MixSignals_lane, MixSignals_scalar. rewrite !signals_equal by lra. cbn [fst snd].
  replace (1 * 1 + (-2 - 2) * (-2 - 2) / 8) with 3 by field.
  assert (1 < sqrt 3) as A by (apply Rle_lt_trans with (sqrt (1 * 1)); [rewrite sqrt_square; lra | apply sqrt_lt_1_alt; lra]).
  set (q := sqrt 3) in *. clearbody q. split.
  - rewrite (Rmin_right _ ((2 + -2) / 2 - 1 * q)) by lra. rewrite (Rmin_right _ ((2 + -2) / 2 - 1 / 2 * q)) by lra. lra.
  - rewrite (Rmax_left ((2 + -2) / 2 + 1 * q)) by lra. rewrite (Rmax_left ((2 + -2) / 2 + 1 / 2 * q)) by lra. lra.
Qed.
Print Assumptions C72_signals_refuted.
