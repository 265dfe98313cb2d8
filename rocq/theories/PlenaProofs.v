(** Lemmas for C42. *)
From Coq Require Import List Reals Lra Lia Bool Machin.
From Verif Require Import PlenaModel PlenaSpec.
Import ListNotations.
Local Open Scope R_scope.

Lemma curve_eq o n : CompressorPressureRatio o n = curve o n.
Proof.
  unfold CompressorPressureRatio, curve, pratiomean, pratiovar, rpmmean.
  replace (1 / 2 * (rpmmax o + rpmmin o)) with ((rpmmax o + rpmmin o) / 2) by field. field. apply PI_neq0.
Qed.

Lemma clamp_range x lo hi : lo <= hi -> lo <= clamp x lo hi <= hi.
Proof. intros H. unfold clamp. destruct (Rlt_dec x lo); [lra|]. destruct (Rlt_dec hi x); lra. Qed.

(** Destruct the result of the three parts *)
Lemma update_inv g o s c s' : UpdatePlena g o s c = Done s' ->
  exists s1 s2, UpdateTurbinePlenum s g o (c_mdot c) (c_turbine c) (c_last c) (c_dt c) = Done s1 /\
    UpdateCompressorPlenum s1 g o (c_rho c) (c_spec c) (c_dt c) = Done s2 /\ ChangeRPM s2 o (c_dt c) = Done s'.
Proof.
  unfold UpdatePlena. intros H. destruct (UpdateTurbinePlenum _ _ _ _ _ _ _) as [s1| |]; try discriminate. cbn [bind] in H.
  destruct (UpdateCompressorPlenum _ _ _ _ _ _) as [s2| |] eqn:E; try discriminate. cbn [bind] in H. exists s1, s2. auto.
Qed.
Lemma turbine_keeps s g o m t f dt s1 : UpdateTurbinePlenum s g o m t f dt = Done s1 ->
  rpm s1 = rpm s /\ compressor s1 = compressor s /\ fuel s1 = fuel s.
Proof. unfold UpdateTurbinePlenum. destruct (pow _ _); cbn [bind]; intros H; try discriminate. injection H as <-. auto. Qed.
Lemma compressor_keeps s g o fr fs dt s2 : UpdateCompressorPlenum s g o fr fs dt = Done s2 ->
  rpm s2 = rpm s /\ turbine s2 = turbine s /\ fuel s2 = fuel s + fs * area_inlet o * dt /\
  p_pressure (compressor s2) = curve o (rpm s) /\ p_SEC (compressor s2) = p_SEC (compressor s).
Proof.
  unfold UpdateCompressorPlenum, UpdateCompressorFromRPM. destruct (pow _ _); cbn [bind]; intros H; try discriminate. injection H as <-.
  cbn. rewrite curve_eq. auto.
Qed.
Lemma change_keeps s o dt s' : rpmmin o <= rpmmax o -> ChangeRPM s o dt = Done s' ->
  rpmmin o <= rpm s' <= rpmmax o /\ fuel s' = fuel s /\ p_pressure (compressor s') = p_pressure (compressor s) /\
  p_power (compressor s') = p_power (compressor s) /\ p_power (turbine s') = p_power (turbine s).
Proof.
  intros R. unfold ChangeRPM. set (d := if Rlt_dec (p_pressure (compressor s)) (target o) then _ else 0).
  destruct (Rlt_dec _ 0); [discriminate|]. intros H. injection H as <-. cbn. split; [apply clamp_range, R | auto].
Qed.

Theorem update_range g o s c s' : rpmmin o <= rpmmax o -> UpdatePlena g o s c = Done s' ->
  rpmmin o <= rpm s' <= rpmmax o /\ p_pressure (compressor s') = curve o (rpm s) /\ fuel s' = fuel s + c_spec c * area_inlet o * c_dt c.
Proof.
  intros R H. destruct (update_inv _ _ _ _ _ H) as (s1 & s2 & A & B & C).
  destruct (turbine_keeps _ _ _ _ _ _ _ _ A) as (A1 & A2 & A3). destruct (compressor_keeps _ _ _ _ _ _ _ B) as (B1 & B2 & B3 & B4 & B5).
  destruct (change_keeps _ _ _ _ R C) as (C1 & C2 & C3 & _). split; [exact C1|]. split.
  - rewrite C3, B4, A1. reflexivity.
  - rewrite C2, B3, A3. reflexivity.
Qed.

Theorem history_range g o calls : rpmmin o <= rpmmax o -> forall s s', rpmmin o <= rpm s <= rpmmax o ->
  (exists n, rpmmin o <= n <= rpmmax o /\ p_pressure (compressor s) = curve o n) ->
  Updates g o s calls = Done s' ->
  rpmmin o <= rpm s' <= rpmmax o /\ (exists n, rpmmin o <= n <= rpmmax o /\ p_pressure (compressor s') = curve o n) /\
  fuel s' = fuel s + fuel_given o calls.
Proof.
  intros R. induction calls as [|c calls IH]; intros s s' Hs Hc H; cbn [Updates] in H.
  - injection H as <-. cbn. repeat split; auto; lra.
  - destruct (UpdatePlena g o s c) as [s1| |] eqn:E; try discriminate. cbn [bind] in H.
    destruct (update_range _ _ _ _ _ R E) as (A & B & C).
    destruct (IH s1 s' A (ex_intro _ (rpm s) (conj Hs B)) H) as (D1 & D2 & D3). split; [auto|]. split; [auto|].
    rewrite D3, C. cbn [fuel_given]. ring.
Qed.

Lemma init_range g o t s : ControlInit g o t = Done s -> rpm s = rpmmin o /\ p_pressure (compressor s) = curve o (rpmmin o) /\ fuel s = 0.
Proof.
  unfold ControlInit, UpdateCompressorFromRPM. cbn [rpm]. destruct (pow _ _); cbn [bind]; intros H; try discriminate. injection H as <-. cbn.
  rewrite curve_eq. auto.
Qed.

Lemma fuel_given_nonneg o calls : 0 <= area_inlet o -> Forall (fun c => 0 <= c_spec c /\ 0 <= c_dt c) calls -> 0 <= fuel_given o calls.
Proof.
  intros A. induction 1 as [|c r [H1 H2] _ IH]; cbn [fuel_given]; [lra|].
  assert (0 <= c_spec c * area_inlet o * c_dt c) by (repeat apply Rmult_le_pos; auto). lra.
Qed.

(** ** The curve *)
Lemma atan_le x y : x <= y -> atan x <= atan y.
Proof. intros [H | ->]; [left; apply atan_increasing; auto | lra]. Qed.

Section Curve.
  Context (o : options) (H1 : 0 < rpmmin o) (H2 : rpmmin o <= rpmmax o) (HP : pratiomin o <= pratiomax o) (HC : 0 <= c_0 o).
  Let spread := PI * ((rpmmax o - rpmmin o) / (rpmmax o + rpmmin o)).

  Lemma curve_monotone m n : m <= n -> curve o m <= curve o n.
  Proof.
    intros L. unfold curve. pose proof PI_RGT_0. apply Rplus_le_compat_l. apply Rmult_le_compat_l; [apply Rmult_le_pos; lra|].
    unfold Rdiv at 1 3. apply Rmult_le_compat_r; [left; apply Rinv_0_lt_compat; auto|]. apply atan_le, Rmult_le_compat_l; [lra|].
    apply Rplus_le_compat_r. unfold Rdiv. apply Rmult_le_compat_r; [|auto]. left. apply Rinv_0_lt_compat. lra.
  Qed.

  Lemma curve_ends : curve o (rpmmax o) = (pratiomax o + pratiomin o) / 2 + c_0 o * (pratiomax o - pratiomin o) * (atan spread / PI) /\
                     curve o (rpmmin o) = (pratiomax o + pratiomin o) / 2 - c_0 o * (pratiomax o - pratiomin o) * (atan spread / PI).
  Proof.
    unfold curve, spread. split.
    - do 5 f_equal. field. lra.
    - replace (PI * (rpmmin o / ((rpmmax o + rpmmin o) / 2) - 1)) with (- (PI * ((rpmmax o - rpmmin o) / (rpmmax o + rpmmin o)))) by (field; lra).
      rewrite atan_opp. field. apply PI_neq0.
  Qed.

  Lemma curve_bounded : c_0 o * atan spread <= PI / 2 -> forall n, rpmmin o <= n <= rpmmax o -> pratiomin o <= curve o n <= pratiomax o.
  Proof.
    intros HB n Hn. destruct curve_ends as [E1 E2]. pose proof (curve_monotone n (rpmmax o)). pose proof (curve_monotone (rpmmin o) n).
    pose proof PI_RGT_0.
    assert (K : c_0 o * (atan spread / PI) <= 1 / 2).
    { replace (c_0 o * (atan spread / PI)) with (c_0 o * atan spread * / PI) by (field; lra).
      replace (1 / 2) with (PI / 2 * / PI) by (field; lra). apply Rmult_le_compat_r; [left; apply Rinv_0_lt_compat; auto | auto]. }
    assert (K2 : c_0 o * (pratiomax o - pratiomin o) * (atan spread / PI) <= (pratiomax o - pratiomin o) / 2).
    { replace (c_0 o * (pratiomax o - pratiomin o) * (atan spread / PI)) with (c_0 o * (atan spread / PI) * (pratiomax o - pratiomin o)) by ring.
      replace ((pratiomax o - pratiomin o) / 2) with (1 / 2 * (pratiomax o - pratiomin o)) by field. apply Rmult_le_compat_r; lra. }
    lra.
  Qed.

  Lemma curve_unbounded : pratiomin o < pratiomax o -> PI / 2 < c_0 o * atan spread -> pratiomax o < curve o (rpmmax o) /\ curve o (rpmmin o) < pratiomin o.
  Proof.
    intros HL HB. destruct curve_ends as [E1 E2]. pose proof PI_RGT_0.
    assert (K : 1 / 2 < c_0 o * (atan spread / PI)).
    { replace (c_0 o * (atan spread / PI)) with (c_0 o * atan spread * / PI) by (field; lra).
      replace (1 / 2) with (PI / 2 * / PI) by (field; lra). apply Rmult_lt_compat_r; [apply Rinv_0_lt_compat; auto | auto]. }
    assert (K2 : (pratiomax o - pratiomin o) / 2 < c_0 o * (pratiomax o - pratiomin o) * (atan spread / PI)).
    { replace (c_0 o * (pratiomax o - pratiomin o) * (atan spread / PI)) with (c_0 o * (atan spread / PI) * (pratiomax o - pratiomin o)) by ring.
      replace ((pratiomax o - pratiomin o) / 2) with (1 / 2 * (pratiomax o - pratiomin o)) by field. apply Rmult_lt_compat_r; lra. }
    lra.
  Qed.
End Curve.

(** ** Energy *)
Lemma rotor_pos o : 0 < inertial o -> 0 < rotor o.
Proof.
  intros H. unfold rotor. pose proof PI_RGT_0 as P. apply Rmult_lt_0_compat; [|auto]. apply Rmult_lt_0_compat; [lra|]. apply Rmult_lt_0_compat; auto.
Qed.
Theorem update_energy g o s c s' : 0 < inertial o -> UpdatePlena g o s c = Done s' ->
  rpmmin o < rpm s' < rpmmax o ->
  rotor o * (rpm s' * rpm s') + power_out s' * c_dt c = rotor o * (rpm s * rpm s) + (p_power (turbine s') - p_power (compressor s')) * c_dt c.
Proof.
  intros HI H R. destruct (update_inv _ _ _ _ _ H) as (s1 & s2 & A & B & C).
  destruct (turbine_keeps _ _ _ _ _ _ _ _ A) as (A1 & _). destruct (compressor_keeps _ _ _ _ _ _ _ B) as (B1 & _).
  unfold ChangeRPM in C. fold (rotor o) in C.
  assert (HR : 0 < rotor o). { apply rotor_pos, HI. }
  set (d := if Rlt_dec (p_pressure (compressor s2)) (target o) then _ else 0) in C.
  destruct (Rlt_dec ((rotor o * rpm s2 * rpm s2 + d * c_dt c) / rotor o) 0) as [|N]; [discriminate|].
  fold d in C. injection C as <-. cbn [rpm power_out turbine compressor p_power] in *.
  revert R. unfold clamp.
  destruct (Rlt_dec _ (rpmmin o)); [intros; lra|]. destruct (Rlt_dec (rpmmax o) _); [intros; lra|]. intros R.
  rewrite sqrt_sqrt by lra. rewrite B1, A1. field. lra.
Qed.

Theorem update_SEC g o s c s' : UpdatePlena g o s c = Done s' -> 0 < target o ->
  (p_SEC (compressor s') = true <->
   if p_SEC (compressor s) then 9 / 10 * target o < p_pressure (compressor s') else (1 - tol_SEC o) * target o < p_pressure (compressor s')).
Proof.
  intros H HT. destruct (update_inv _ _ _ _ _ H) as (s1 & s2 & A & B & C).
  destruct (turbine_keeps _ _ _ _ _ _ _ _ A) as (_ & A2 & _). destruct (compressor_keeps _ _ _ _ _ _ _ B) as (_ & _ & _ & _ & B5).
  rewrite A2 in B5. unfold ChangeRPM in C. set (d := if Rlt_dec (p_pressure (compressor s2)) (target o) then _ else 0) in C.
  destruct (Rlt_dec _ 0) in C; [discriminate|]. injection C as <-. cbn [compressor p_SEC p_pressure].
  clear H d n. rewrite B5. destruct (p_SEC (compressor s)).
  - destruct (Rlt_dec _ _) as [L | L]; [tauto | split; [discriminate | contradiction]].
  - set (p := p_pressure (compressor s2)).
    assert (E : (target o - p) / target o < tol_SEC o <-> (1 - tol_SEC o) * target o < p).
    { split; intros L.
      - apply (Rmult_lt_compat_r (target o)) in L; [|auto]. unfold Rdiv in L. rewrite Rmult_assoc, Rinv_l, Rmult_1_r in L by lra. lra.
      - apply (Rmult_lt_reg_r (target o)); [auto|]. unfold Rdiv. rewrite Rmult_assoc, Rinv_l, Rmult_1_r by lra. lra. }
    rewrite <- E. clear E. destruct (Rlt_dec _ _) as [L | L]; [tauto | split; [discriminate | contradiction]].
Qed.

(** ** When an update is finite *)
Lemma pow_pos x y : 0 < x -> pow x y = Done (Rpower x y).
Proof. intros H. unfold pow. destruct (Rlt_dec 0 x); [auto | contradiction]. Qed.

Theorem update_outcome g o s c : 0 < curve o (rpm s) -> 0 < p_pressure (turbine s) + p_pressure (c_turbine c) -> 0 < inertial o -> target o <> 0 ->
  let E := rotor o * (rpm s * rpm s) + rotor_share o (curve o (rpm s)) * (turbine_power g o s c - compressor_power g o s c) * c_dt c in
  (E < 0 -> UpdatePlena g o s c = SpeedNaN) /\
  (0 <= E -> exists s', UpdatePlena g o s c = Done s' /\ rpm s' = clamp (sqrt (E / rotor o)) (rpmmin o) (rpmmax o) /\
     p_power (turbine s') = turbine_power g o s c /\ p_power (compressor s') = compressor_power g o s c).
Proof.
  intros Hc Ht HI HT E.
  assert (HR : 0 < rotor o). { apply rotor_pos, HI. }
  unfold UpdatePlena, UpdateTurbinePlenum. rewrite pow_pos by lra. cbn [bind].
  unfold UpdateCompressorPlenum, UpdateCompressorFromRPM. cbn [rpm compressor]. rewrite curve_eq. rewrite pow_pos by auto. cbn [bind].
  cbn [compressor turbine p_pressure p_temp p_power].
  unfold ChangeRPM. cbn [compressor turbine p_pressure p_temp p_power rpm p_SEC].
  set (d := if Rlt_dec _ (target o) then _ else 0).
  assert (Ed : d = rotor_share o (curve o (rpm s)) * (turbine_power g o s c - compressor_power g o s c)).
  { unfold d, rotor_share. destruct (Rlt_dec _ _); [|ring].
    replace (- o_mu o * ((target o - curve o (rpm s)) / target o)) with (- (o_mu o * (1 - curve o (rpm s) / target o))) by (field; auto).
    f_equal. unfold turbine_power, compressor_power, compressor_temperature.
    replace (1 / 2 * (p_pressure (turbine s) + p_pressure (c_turbine c))) with ((p_pressure (turbine s) + p_pressure (c_turbine c)) / 2) by field.
    f_equal; [field|]. unfold Rdiv. ring. }
  clearbody d. fold (rotor o).
  assert (EE : rotor o * rpm s * rpm s + d * c_dt c = E) by (rewrite Ed; unfold E; ring). rewrite EE.
  split; intros HE.
  - destruct (Rlt_dec (E / rotor o) 0) as [|N]; [auto|]. exfalso. apply N. apply (Rmult_lt_reg_r (rotor o)); [auto|]. unfold Rdiv.
    rewrite Rmult_assoc, Rinv_l by lra. lra.
  - destruct (Rlt_dec (E / rotor o) 0) as [L|_].
    + exfalso. assert (0 <= E / rotor o) by (apply Rmult_le_pos; [auto | left; apply Rinv_0_lt_compat; auto]). lra.
    + eexists. split; [reflexivity|]. cbn [rpm turbine compressor p_power]. split; [auto|]. split.
      * unfold turbine_power. replace (1 / 2 * (p_pressure (turbine s) + p_pressure (c_turbine c))) with ((p_pressure (turbine s) + p_pressure (c_turbine c)) / 2) by field. field.
      * unfold compressor_power, compressor_temperature. unfold Rdiv. ring.
Qed.

(** ** The default options *)
Lemma pi_upper : PI < 32 / 10.
Proof. destruct (PI_2_3_7_ineq 1) as [_ H]. cbn in H. unfold tg_alt, PI_2_3_7_tg, Ratan_seq in H. cbn in H. field_simplify in H. lra. Qed.
Lemma pi_lower : 3 < PI. Proof. pose proof PI2_3_2. lra. Qed.

Lemma atan_low z : 0 < z -> z / (1 + z * z) < atan z.
Proof.
  intros Hz. destruct (MVT_cor2 atan (fun x => / (1 + x ^ 2)) 0 z Hz (fun c _ => derivable_pt_lim_atan c)) as (c & E & Hc).
  rewrite atan_0, !Rminus_0_r in E. rewrite E. unfold Rdiv. rewrite (Rmult_comm z). apply Rmult_lt_compat_r; [auto|].
  assert (c * c < z * z) by (apply Rmult_le_0_lt_compat; lra). assert (0 <= c * c) by (apply Rmult_le_pos; lra).
  replace (c ^ 2) with (c * c) by ring. apply Rinv_lt_contravar; [apply Rmult_lt_0_compat; lra | lra].
Qed.

Lemma default_spread : 22 / 17 * atan (PI * ((60000 / 60 - 10000 / 60) / (60000 / 60 + 10000 / 60))) < PI / 2.
Proof.
  replace ((60000 / 60 - 10000 / 60) / (60000 / 60 + 10000 / 60)) with (5 / 7) by field.
  pose proof pi_upper as U. pose proof pi_lower as L.
  assert (Z : 0 < / (PI * (5 / 7))) by (apply Rinv_0_lt_compat; lra).
  pose proof (atan_low _ Z) as A. rewrite atan_inv in A by lra.
  set (z := / (PI * (5 / 7))) in *.
  assert (B : 5 * PI / 44 < z / (1 + z * z)).
  { assert (PI * PI < 32 / 10 * (32 / 10)) by (apply Rmult_le_0_lt_compat; lra).
    assert (Ez : z = 7 / (5 * PI)) by (unfold z; field; lra).
    replace (z / (1 + z * z)) with (35 * PI / (25 * (PI * PI) + 49)) by (rewrite Ez; field; split; nra).
    apply (Rmult_lt_reg_r (25 * (PI * PI) + 49)); [nra|].
    replace (35 * PI / (25 * (PI * PI) + 49) * (25 * (PI * PI) + 49)) with (35 * PI) by (field; nra). nra. }
  lra.
Qed.

Lemma default_start : 1 < curve default_options (10000 / 60) < 13 / 2.
Proof.
  destruct (curve_ends default_options) as [_ E]; [cbn; lra | cbn; lra |]. cbn [default_options rpmmin rpmmax pratiomin pratiomax c_0] in E. rewrite E.
  pose proof default_spread as S. pose proof pi_lower as L.
  set (a := atan _) in *.
  assert (A : PI / 3 < a).
  { unfold a. replace ((60000 / 60 - 10000 / 60) / (60000 / 60 + 10000 / 60)) with (5 / 7) by field.
    rewrite <- (atan_tan (PI / 3)) by lra. apply atan_increasing. rewrite tan_PI3.
    apply Rlt_le_trans with 2; [|lra]. rewrite <- (sqrt_square 2) by lra. apply sqrt_lt_1; lra. }
  assert (Q : 1 / 3 < a / PI).
  { apply (Rmult_lt_reg_r PI); [lra|]. unfold Rdiv at 2. rewrite Rmult_assoc, Rinv_l by lra. lra. }
  assert (Q2 : 22 / 17 * (a / PI) < 1 / 2).
  { apply (Rmult_lt_reg_r PI); [lra|]. replace (22 / 17 * (a / PI) * PI) with (22 / 17 * a) by (field; lra). lra. }
  lra.
Qed.

Lemma Rpower_gt_1 x y : 1 < x -> 0 < y -> 1 < Rpower x y.
Proof. intros. rewrite <- (Rpower_O x) by lra. apply Rpower_lt; auto. Qed.

Theorem default_nan g t dt : 0 < gmoog g -> 0 < cp g -> 0 < p_pressure t -> 0 < dt ->
  exists s c, ControlInit g default_options t = Done s /\ c_dt c = dt /\ p_pressure (c_turbine c) = p_pressure t /\ UpdatePlena g default_options s c = SpeedNaN.
Proof.
  intros Hg Hcp Hp Hdt. pose proof default_start as [D1 D2].
  set (o := default_options) in *. set (p := curve o (10000 / 60)) in *.
  set (s := mkControl (10000 / 60) (mkPlenum p (1 + (Rpower p (gmoog g) - 1) / (9 / 10)) 0 0 0 false) t 0 0 0 0).
  assert (Es : ControlInit g o t = Done s).
  { unfold ControlInit, UpdateCompressorFromRPM. cbn [rpm]. rewrite curve_eq. replace (curve o (rpmmin o)) with p by reflexivity.
    rewrite pow_pos by lra. reflexivity. }
  set (T := compressor_temperature g o p).
  assert (HT : 1 < T).
  { unfold T, compressor_temperature. cbn [o default_options eff_compressor]. pose proof (Rpower_gt_1 p (gmoog g) D1 Hg). lra. }
  set (r := rotor_share o p).
  assert (Hr : 0 < r).
  { unfold r, rotor_share. cbn [o default_options target o_mu]. destruct (Rlt_dec p (13 / 2)); [|contradiction].
    assert (exp (- (10 * (1 - p / (13 / 2)))) < 1); [|lra].
    apply Rlt_le_trans with (exp 0); [apply exp_increasing; lra | rewrite exp_0; lra]. }
  set (k := r * dt * dt * ((T - 1) * cp g / (9 / 10))).
  assert (Hk : 0 < k).
  { unfold k. apply Rmult_lt_0_compat; [apply Rmult_lt_0_compat; [apply Rmult_lt_0_compat; auto | auto]|].
    unfold Rdiv. apply Rmult_lt_0_compat; [apply Rmult_lt_0_compat; lra | lra]. }
  set (F := (rotor o * (10000 / 60 * (10000 / 60)) + 1) / k).
  set (c := mkCall 0 t F 0 0 dt).
  exists s, c. split; [exact Es|]. split; [reflexivity|]. split; [reflexivity|].
  destruct (update_outcome g o s c) as [N _].
  - cbn [s rpm]. fold p. lra.
  - cbn [s turbine c c_turbine]. lra.
  - cbn. lra.
  - cbn. lra.
  - apply N. cbn [s rpm c c_dt]. fold p. fold r.
    assert (Et : turbine_power g o s c = 0) by (unfold turbine_power; cbn [c c_mdot]; ring).
    assert (Ec : compressor_power g o s c = dt * (F * ((T - 1) * cp g / (9 / 10)))).
    { unfold compressor_power. cbn [s rpm compressor p_power p_temp p_pressure c c_dt c_rho]. fold p. fold T.
      cbn [o default_options area_inlet vol_compressor eff_compressor].
      replace (1 + (Rpower p (gmoog g) - 1) / (9 / 10)) with T by reflexivity. field. lra. }
    rewrite Et, Ec.
    replace (r * (0 - dt * (F * ((T - 1) * cp g / (9 / 10)))) * dt) with (- (F * k)) by (unfold k; ring).
    replace (F * k) with (rotor o * (10000 / 60 * (10000 / 60)) + 1) by (unfold F; field; lra). lra.
Qed.
