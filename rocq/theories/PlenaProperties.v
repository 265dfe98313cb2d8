(** C42: the control of the gas turbine. *)
From Coq Require Import List Reals Lra.
From Verif Require Import PlenaModel PlenaSpec PlenaProofs.
Import ListNotations.
Local Open Scope R_scope.

(** For every history of updates after construction whose numbers stay finite, the rotation speed is within its range,
    the compressor pressure is that of the characteristic curve at a speed within the range, and the accumulated fuel
    is exactly what was given; it has not decreased if the given fluxes are not negative. *)
Theorem C42_history_partial : forall (g : gas) (o : options) (t : plenum) (s0 s : control) (calls : list call),
  rpmmin o <= rpmmax o -> ControlInit g o t = Done s0 -> Updates g o s0 calls = Done s ->
  rpmmin o <= rpm s <= rpmmax o /\
  (exists n, rpmmin o <= n <= rpmmax o /\ p_pressure (compressor s) = curve o n) /\
  fuel s = fuel_given o calls /\
  (0 <= area_inlet o -> Forall (fun c => 0 <= c_spec c /\ 0 <= c_dt c) calls -> 0 <= fuel s).
Proof.
  intros g o t s0 s calls R HI HU. destruct (init_range _ _ _ _ HI) as (A & B & C).
  assert (R0 : rpmmin o <= rpm s0 <= rpmmax o) by (rewrite A; lra).
  assert (R1 : rpmmin o <= rpmmin o <= rpmmax o) by lra.
  destruct (history_range g o calls R s0 s R0 (ex_intro _ (rpmmin o) (conj R1 B)) HU) as (D & E & F).
  assert (G : fuel s = fuel_given o calls) by (rewrite F, C; ring).
  split; [auto|]. split; [auto|]. split; [auto|]. intros HA HF. rewrite G. apply fuel_given_nonneg; auto.
Qed.
Print Assumptions C42_history_partial.

(** Between any two points of a history the fuel counter does not decrease. *)
Theorem C42_fuel : forall (g : gas) (o : options) (s s' : control) (calls : list call),
  rpmmin o <= rpmmax o -> rpmmin o <= rpm s <= rpmmax o -> p_pressure (compressor s) = curve o (rpm s) -> 0 <= area_inlet o ->
  Forall (fun c => 0 <= c_spec c /\ 0 <= c_dt c) calls -> Updates g o s calls = Done s' -> fuel s <= fuel s'.
Proof.
  intros g o s s' calls R Rs E HA HF HU.
  destruct (history_range g o calls R s s' Rs (ex_intro _ (rpm s) (conj Rs E)) HU) as (_ & _ & F).
  pose proof (fuel_given_nonneg o calls HA HF). lra.
Qed.
Print Assumptions C42_fuel.

(** The curve increases with the speed, and stays within the configured pressure ratios for all speeds of the range if
    and only if c_0 atan(pi (rpmmax - rpmmin) / (rpmmax + rpmmin)) is at most pi / 2. *)
Theorem C42_pressure : forall (o : options),
  0 < rpmmin o -> rpmmin o <= rpmmax o -> pratiomin o < pratiomax o -> 0 <= c_0 o ->
  (forall m n, m <= n -> curve o m <= curve o n) /\
  ((forall n, rpmmin o <= n <= rpmmax o -> pratiomin o <= curve o n <= pratiomax o) <->
   c_0 o * atan (PI * ((rpmmax o - rpmmin o) / (rpmmax o + rpmmin o))) <= PI / 2).
Proof.
  intros o H1 H2 HP HC. split; [intros; apply curve_monotone; auto; lra|]. split.
  - intros H. destruct (Rle_dec (c_0 o * atan (PI * ((rpmmax o - rpmmin o) / (rpmmax o + rpmmin o)))) (PI / 2)) as [|N]; [auto|].
    exfalso. destruct (curve_unbounded o H1 H2) as [A _]; [auto | lra |]. specialize (H (rpmmax o)). lra.
  - intros H n Hn. apply curve_bounded; auto; lra.
Qed.
Print Assumptions C42_pressure.

(** The default options meet the condition. *)
Theorem C42_default_pressure : forall n, rpmmin default_options <= n <= rpmmax default_options ->
  pratiomin default_options <= curve default_options n <= pratiomax default_options.
Proof. intros n Hn. apply curve_bounded; cbn; try lra; [left; exact default_spread | exact Hn]. Qed.
Print Assumptions C42_default_pressure.

(** Energy: unless the speed is cut off, what the rotor gains and the power given out add up to the power of the turbine
    minus that of the compressor. *)
Theorem C42_energy : forall (g : gas) (o : options) (s s' : control) (c : call),
  0 < inertial o -> UpdatePlena g o s c = Done s' -> rpmmin o < rpm s' < rpmmax o ->
  rotor o * (rpm s' * rpm s') + power_out s' * c_dt c =
  rotor o * (rpm s * rpm s) + (p_power (turbine s') - p_power (compressor s')) * c_dt c.
Proof. intros g o s s' c. exact (update_energy g o s c s'). Qed.
Print Assumptions C42_energy.

(** The mode: it switches on when the pressure is within the tolerance of the target, and off when the pressure is not
    above nine tenths of the target. *)
Theorem C42_mode : forall (g : gas) (o : options) (s s' : control) (c : call),
  UpdatePlena g o s c = Done s' -> 0 < target o ->
  (p_SEC (compressor s') = true <->
   if p_SEC (compressor s) then 9 / 10 * target o < p_pressure (compressor s')
   else (1 - tol_SEC o) * target o < p_pressure (compressor s')).
Proof. intros g o s s' c. exact (update_SEC g o s c s'). Qed.
Print Assumptions C42_mode.

(** One update from a state with positive pressures: if the energy of the rotor would stay positive the powers are those
    of the specification and the speed follows, otherwise the speed is not a number. *)
Theorem C42_update : forall (g : gas) (o : options) (s : control) (c : call),
  0 < curve o (rpm s) -> 0 < p_pressure (turbine s) + p_pressure (c_turbine c) -> 0 < inertial o -> target o <> 0 ->
  let E := rotor o * (rpm s * rpm s) + rotor_share o (curve o (rpm s)) * (turbine_power g o s c - compressor_power g o s c) * c_dt c in
  (E < 0 -> UpdatePlena g o s c = SpeedNaN) /\
  (0 <= E -> exists s', UpdatePlena g o s c = Done s' /\ rpm s' = clamp (sqrt (E / rotor o)) (rpmmin o) (rpmmax o) /\
     p_power (turbine s') = turbine_power g o s c /\ p_power (compressor s') = compressor_power g o s c).
Proof. exact update_outcome. Qed.
Print Assumptions C42_update.

(** So the claim fails for arbitrary inputs: with the default options, for every gas, every step size and every turbine
    state there is a mass flux after which the rotation speed of a new control is not a number. *)
Theorem C42_speed_refuted : forall (g : gas) (t : plenum) (dt : R),
  0 < gmoog g -> 0 < cp g -> 0 < p_pressure t -> 0 < dt ->
  exists s c, ControlInit g default_options t = Done s /\ c_dt c = dt /\ p_pressure (c_turbine c) = p_pressure t /\
    UpdatePlena g default_options s c = SpeedNaN.
Proof. exact default_nan. Qed.
Print Assumptions C42_speed_refuted.

(** The default options, air, a call without any flux: the hypotheses hold and the update is finite. *)
Example C42_example :
  let g := mkGas (2 / 7) (7 / 2) in let t := mkPlenum 1 1 0 0 0 false in let c := mkCall 0 t 0 0 0 1 in
  rpmmin default_options <= rpmmax default_options /\ 0 < inertial default_options /\ target default_options <> 0 /\
  exists s s', ControlInit g default_options t = Done s /\ Updates g default_options s [c] = Done s' /\ 0 < curve default_options (rpm s).
Proof.
  cbv zeta. split; [cbn; lra|]. split; [cbn; lra|]. split; [cbn; lra|].
  pose proof default_start as [D1 D2]. set (g := mkGas (2 / 7) (7 / 2)). set (t := mkPlenum 1 1 0 0 0 false). set (c := mkCall 0 t 0 0 0 1).
  assert (Es : exists s, ControlInit g default_options t = Done s /\ rpm s = 10000 / 60 /\ turbine s = t).
  { unfold ControlInit, UpdateCompressorFromRPM. cbn [rpm]. rewrite curve_eq, pow_pos by (cbn [rpmmin default_options]; lra).
    cbn [bind]. eexists. split; [reflexivity|]. split; reflexivity. }
  destruct Es as (s & Es & Er & Et). exists s.
  destruct (update_outcome g default_options s c) as [_ N].
  - rewrite Er. lra.
  - rewrite Et. cbn. lra.
  - cbn. lra.
  - cbn. lra.
  - destruct N as (s' & N & _).
    + unfold turbine_power. cbn [c c_mdot c_dt].
      replace (compressor_power g default_options s c) with 0.
      * assert (0 < rotor default_options) by (apply rotor_pos; cbn; lra).
        assert (0 <= rpm s * rpm s) by apply Rle_0_sqr.
        assert (0 <= rotor default_options * (rpm s * rpm s)) by (apply Rmult_le_pos; lra). rewrite !Rmult_0_l, Rminus_0_r, Rmult_0_r, Rmult_0_l, Rplus_0_r. auto.
      * unfold compressor_power. cbn [c c_dt c_rho]. revert Es. unfold ControlInit, UpdateCompressorFromRPM. cbn [rpm].
        rewrite curve_eq, pow_pos by (cbn [rpmmin default_options]; lra). cbn [bind]. intros Es. injection Es as <-.
        cbn [rpm compressor p_power p_temp p_pressure]. unfold compressor_temperature. cbn [rpmmin default_options].
        set (p := curve _ _). set (T := 1 + _). replace (p / T - p / T) with 0 by ring. field.
        cbn. lra.
    + exists s'. split; [auto|]. split; [cbn [Updates]; rewrite N; reflexivity | rewrite Er; lra].
Qed.
