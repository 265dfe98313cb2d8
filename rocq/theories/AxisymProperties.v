(** C96: the source term of axial symmetry. *)
From Coq Require Import List Reals Bool Lra Lia.
From Verif Require Import AxisymModel AxisymProofs AxisymProofs2.
Local Open Scope R_scope.

(** Specification: along the source term alone the velocities are constant and d rho / dt = - rho u / r, hence this density after the time t *)
Definition exact_density (rho u r t : R) : R := rho * exp (- (t * u / r)).
Definition radial_velocity (U : axi) : R := a_mr U / a_rho U.
Definition axial_velocity (U : axi) : R := a_ma U / a_rho U.

Lemma on_self : forall U, 0 < a_rho U -> on (radial_velocity U) (axial_velocity U) (a_rho U) U.
Proof. intros U H. unfold on, radial_velocity, axial_velocity. repeat split; field; lra. Qed.
Lemma velocity_nonneg : forall U, 0 < a_rho U -> 0 <= a_mr U -> 0 <= radial_velocity U.
Proof. intros U H H0. apply Rmult_le_pos; [exact H0 | left; apply Rinv_0_lt_compat; exact H]. Qed.

(** C96: in every cell with outward (or no) radial flow and for every equation of state, step and radius the integration ends, no
    exception is thrown, the density stays positive, both velocities are kept exactly, and after k steps of the length h the density is
    that of the exact solution at the time k h up to k (h u / r)^5 / 120; h is the smaller of dt and r / u, and less than one step is
    missing to dt. *)
Theorem C96_outflow : forall pressure alpha r dt U, 0 < alpha -> 0 < r -> 0 < dt -> 0 < a_rho U -> 0 <= a_mr U ->
  exists fuel V k h, AdvanceCell fuel pressure alpha r dt U = Stored V k /\
    0 < h /\ h <= dt /\ h * radial_velocity U <= r /\ (h < dt -> h * radial_velocity U = r) /\ INR k * h <= dt < INR k * h + h /\
    0 < a_rho V /\ radial_velocity V = radial_velocity U /\ axial_velocity V = axial_velocity U /\
    0 <= a_rho V - exact_density (a_rho U) (radial_velocity U) r (INR k * h) <= a_rho U * (INR k * (h * radial_velocity U / r) ^ 5 / 120).
Proof.
  intros P alpha r dt U Ha Hr Hd Hrho Hm. set (u := radial_velocity U). set (v := axial_velocity U).
  assert (Hu : 0 <= u) by (apply velocity_nonneg; assumption).
  set (h := step_size r dt u). destruct (step_outflow r dt u Hr Hd Hu) as [[H1 H2] [H3 H4]]. fold h in H1, H2, H3, H4.
  destruct (loop_steps (rhs P r) dt h H1 (Rlt_le _ _ Hd)) as [K [[K1 K2] L]]. destruct (L U) as [fuel EL].
  set (V := Nat.iter K (rk4 (rhs P r) h) U) in *. set (x := h * (u / r)) in *.
  assert (OV : on u v (a_rho U * P4 (- x) ^ K) V) by (apply iter_on; [exact Hr | exact Hrho | fold x; lra | apply on_self; exact Hrho]).
  destruct OV as [O1 [O2 O3]].
  assert (PV : 0 < a_rho V) by (rewrite O1; apply Rmult_lt_0_compat; [exact Hrho | apply pow_lt, P4_pos]).
  exists fuel, V, K, h. split.
  { unfold AdvanceCell. destruct (Rlt_dec 0 alpha) as [_|N]; [|contradiction]. destruct (Rlt_dec 0 r) as [_|N]; [|contradiction].
    fold (radial_velocity U). fold u. fold h. rewrite EL. destruct (Rle_dec (a_rho V) 0) as [N|_]; [lra | reflexivity]. }
  split; [exact H1|]. split; [exact H2|].
  split. { replace (h * u) with (x * r) by (unfold x; field; lra). rewrite <- (Rmult_1_l r) at 2. apply Rmult_le_compat_r; lra. }
  split.
  { unfold h, step_size. destruct (Req_EM_T u 0) as [E|N]; [lra|]. destruct (Rlt_dec (r / u) dt) as [_|N']; [intros _; field; exact N | lra]. }
  split. { split; [exact K1|]. rewrite S_INR in K2. lra. }
  split; [exact PV|]. rewrite <- O1 in O2, O3.
  split; [unfold radial_velocity; rewrite O2; field; lra|]. split; [unfold axial_velocity; rewrite O3; field; lra|].
  unfold exact_density. rewrite O1. replace (INR K * h * u / r) with (INR K * x) by (unfold x; field; lra). rewrite <- exp_INR.
  replace (h * u / r) with x by (unfold x; field; lra).
  destruct (P4_exp x H3) as [E1 E2].
  assert (EP : 0 < exp (- x)) by apply exp_pos.
  destruct (pow_diff (P4 (- x)) (exp (- x)) K ltac:(lra) (P4_le_1 x (conj H3 H4))) as [D1 D2].
  replace (a_rho U * P4 (- x) ^ K - a_rho U * exp (- x) ^ K) with (a_rho U * (P4 (- x) ^ K - exp (- x) ^ K)) by ring.
  split; [apply Rmult_le_pos; lra|]. apply Rmult_le_compat_l; [lra|]. apply Rle_trans with (1 := D2).
  replace (INR K * x ^ 5 / 120) with (INR K * (x ^ 5 / 120)) by (unfold Rdiv; ring). apply Rmult_le_compat_l; [apply pos_INR | exact E2].
Qed.
Print Assumptions C96_outflow.

(** A cell at the radius 2 with the radial velocity 1 and the axial velocity 3, step 1, any pressure function *)
Example C96_example : forall pressure, exists fuel V k h,
  AdvanceCell fuel pressure (1 / 2) 2 1 (mkAxi 2 6 2 50 (fun _ => 1)) = Stored V k /\ k = 1%nat /\ h = 1 /\ axial_velocity V = 3 /\
  0 <= a_rho V - 2 * exp (- (1 / 2)) <= 1 / 1920.
Proof.
  intro P. destruct (C96_outflow P (1 / 2) 2 1 (mkAxi 2 6 2 50 (fun _ => 1))) as [fuel [V [k [h [E [H1 [H2 [H3 [H4 [H5 [H6 [H7 [H8 H9]]]]]]]]]]]]]; try (cbn [a_rho a_mr]; lra).
  assert (EU : radial_velocity (mkAxi 2 6 2 50 (fun _ => 1)) = 1) by (unfold radial_velocity; cbn [a_rho a_mr]; field).
  assert (EA : axial_velocity (mkAxi 2 6 2 50 (fun _ => 1)) = 3) by (unfold axial_velocity; cbn [a_rho a_ma]; field).
  rewrite EU in *. rewrite EA in H8. cbn [a_rho] in H9.
  assert (Eh : h = 1) by (destruct (Rle_lt_or_eq_dec h 1 H2) as [L|Q]; [specialize (H4 L); lra | exact Q]). subst h.
  assert (Ek : k = 1%nat).
  { apply INR_eq. cbn [INR]. destruct k as [|[|k]]; [cbn [INR] in H5; lra | reflexivity | rewrite !S_INR in H5; generalize (pos_INR k); lra]. }
  subst k. exists fuel, V, 1%nat, 1. cbn [INR] in H9.
  split; [exact E|]. split; [reflexivity|]. split; [reflexivity|]. split; [exact H8|].
  unfold exact_density in H9. replace (1 * 1 * 1 / 2) with (1 / 2) in H9 by field. replace (2 * (1 * (1 * 1 / 2) ^ 5 / 120)) with (1 / 1920) in H9 by field. exact H9.
Qed.

(** C96: for a perfect gas the pressure stays positive too. *)
Theorem C96_perfect_gas : forall g alpha r dt U, 1 < g -> 0 < alpha -> 0 < r -> 0 < dt -> 0 < a_rho U -> 0 <= a_mr U -> 0 < gas_pressure g U ->
  exists fuel V k, AdvanceCell fuel (gas_pressure g) alpha r dt U = Stored V k /\ 0 < gas_pressure g V /\ 0 < a_rho V.
Proof.
  intros g alpha r dt U Hg Ha Hr Hd Hrho Hm Hp. set (u := radial_velocity U). set (v := axial_velocity U).
  assert (Hu : 0 <= u) by (apply velocity_nonneg; assumption).
  set (h := step_size r dt u). destruct (step_outflow r dt u Hr Hd Hu) as [[H1 H2] [H3 H4]]. fold h in H1, H2, H3, H4.
  destruct (loop_steps (rhs (gas_pressure g) r) dt h H1 (Rlt_le _ _ Hd)) as [K [[K1 K2] L]]. destruct (L U) as [fuel EL].
  set (V := Nat.iter K (rk4 (rhs (gas_pressure g) r) h) U) in *. set (x := h * (u / r)) in *.
  assert (OE : onE g u v (a_rho U) (gas_pressure g U) U).
  { split; [apply on_self; exact Hrho|]. unfold gas_pressure, u, v, radial_velocity, axial_velocity. field. lra. }
  assert (OV := iter_onE g r u v h (a_rho U) (gas_pressure g U) U K Hg Hr Hrho ltac:(fold x; lra) OE). fold x V in OV.
  destruct OV as [[O1 [O2 O3]] O4].
  assert (PV : 0 < a_rho V) by (rewrite O1; apply Rmult_lt_0_compat; [exact Hrho | apply pow_lt, P4_pos]).
  exists fuel, V, K. split.
  { unfold AdvanceCell. destruct (Rlt_dec 0 alpha) as [_|N]; [|contradiction]. destruct (Rlt_dec 0 r) as [_|N]; [|contradiction].
    fold (radial_velocity U). fold u. fold h. rewrite EL. destruct (Rle_dec (a_rho V) 0) as [N|_]; [lra | reflexivity]. }
  split; [|exact PV].
  assert (E : gas_pressure g V = gas_pressure g U * P4 (g * - x) ^ K).
  { unfold gas_pressure at 1. rewrite O4. rewrite <- O1 in O2, O3 |- *. rewrite O2, O3. field. split; lra. }
  rewrite E. apply Rmult_lt_0_compat; [exact Hp | apply pow_lt, P4_pos].
Qed.
Print Assumptions C96_perfect_gas.

Example C96_gas_example : 1 < 7 / 5 /\ 0 < gas_pressure (7 / 5) (mkAxi 2 6 2 50 (fun _ => 1)).
Proof. unfold gas_pressure. cbn [a_rho a_ma a_mr a_E]. lra. Qed.

(** C96: covered cells and cells on the other side of the axis are left alone. *)
Theorem C96_untouched : forall fuel pressure alpha r dt U, alpha <= 0 \/ r <= 0 -> AdvanceCell fuel pressure alpha r dt U = Stored U 0.
Proof.
  intros fuel P alpha r dt U [H|H]; unfold AdvanceCell; destruct (Rlt_dec 0 alpha) as [A|A]; try lra; try reflexivity;
    destruct (Rlt_dec 0 r) as [B|B]; try lra; reflexivity.
Qed.
Print Assumptions C96_untouched.

Example C96_untouched_example : AdvanceCell 5 (fun _ => 1) 1 (Ropp 2) 1 (mkAxi 2 6 2 50 (fun _ => 1)) = Stored (mkAxi 2 6 2 50 (fun _ => 1)) 0.
Proof. apply C96_untouched. right. lra. Qed.

(** C96 refuted for flow towards the axis: the step size r / u is negative, integrate_const does nothing, and the cell keeps its state
    although the exact density grows. *)
Theorem C96_inflow_refuted : forall fuel pressure alpha r dt U, 0 < alpha -> 0 < r -> 0 < dt -> 0 < a_rho U -> a_mr U < 0 ->
  AdvanceCell fuel pressure alpha r dt U = Stored U 0 /\ a_rho U < exact_density (a_rho U) (radial_velocity U) r dt.
Proof.
  intros fuel P alpha r dt U Ha Hr Hd Hrho Hm.
  assert (I : 0 < / a_rho U) by (apply Rinv_0_lt_compat; exact Hrho). assert (J : 0 < / r) by (apply Rinv_0_lt_compat; exact Hr).
  assert (Hu : radial_velocity U < 0).
  { unfold radial_velocity. replace (a_mr U / a_rho U) with (- (- a_mr U * / a_rho U)) by (unfold Rdiv; ring).
    apply Ropp_lt_gt_0_contravar, Rmult_lt_0_compat; lra. }
  split.
  - unfold AdvanceCell. destruct (Rlt_dec 0 alpha) as [_|N]; [|contradiction]. destruct (Rlt_dec 0 r) as [_|N]; [|contradiction].
    fold (radial_velocity U). unfold step_size. destruct (Req_EM_T (radial_velocity U) 0) as [E|N]; [lra|].
    assert (S : r / radial_velocity U < 0).
    { replace (r / radial_velocity U) with (- (r * / - radial_velocity U)) by (field; lra).
      apply Ropp_lt_gt_0_contravar, Rmult_lt_0_compat; [exact Hr | apply Rinv_0_lt_compat; lra]. }
    destruct (Rlt_dec (r / radial_velocity U) dt) as [_|N']; [|lra]. rewrite loop_negative by lra.
    destruct (Rle_dec (a_rho U) 0) as [N'|_]; [lra | reflexivity].
  - unfold exact_density. rewrite <- (Rmult_1_r (a_rho U)) at 1. apply Rmult_lt_compat_l; [exact Hrho|]. rewrite <- exp_0 at 1. apply exp_increasing.
    replace (- (dt * radial_velocity U / r)) with (dt * - radial_velocity U * / r) by (unfold Rdiv; ring).
    repeat apply Rmult_lt_0_compat; lra.
Qed.
Print Assumptions C96_inflow_refuted.

Example C96_inflow_example : AdvanceCell 100 (fun _ => 1) 1 2 1 (mkAxi 2 6 (Ropp 2) 50 (fun _ => 1)) = Stored (mkAxi 2 6 (Ropp 2) 50 (fun _ => 1)) 0.
Proof. apply C96_inflow_refuted; cbn [a_rho a_mr]; lra. Qed.

(** C96 refuted for large steps: between r / u and 2 r / u the step makes no difference, the rest of the time is dropped. *)
Theorem C96_remainder_refuted : forall fuel pressure alpha r dt U, 0 < alpha -> 0 < r -> 0 < a_rho U -> 0 < a_mr U ->
  r / radial_velocity U <= dt < 2 * (r / radial_velocity U) ->
  AdvanceCell fuel pressure alpha r dt U = AdvanceCell fuel pressure alpha r (r / radial_velocity U) U.
Proof.
  intros fuel P alpha r dt U Ha Hr Hrho Hm [D1 D2]. unfold AdvanceCell. fold (radial_velocity U).
  assert (Hu : 0 < radial_velocity U) by (apply Rmult_lt_0_compat; [exact Hm | apply Rinv_0_lt_compat; exact Hrho]).
  assert (T : 0 < r / radial_velocity U) by (apply Rmult_lt_0_compat; [exact Hr | apply Rinv_0_lt_compat; exact Hu]).
  set (t := r / radial_velocity U) in *.
  assert (S1 : step_size r dt (radial_velocity U) = t).
  { unfold step_size. fold t. destruct (Req_EM_T (radial_velocity U) 0) as [E|_]; [lra|]. destruct (Rlt_dec t dt); lra. }
  assert (S2 : step_size r t (radial_velocity U) = t).
  { unfold step_size. fold t. destruct (Req_EM_T (radial_velocity U) 0) as [E|_]; [lra|]. destruct (Rlt_dec t t); lra. }
  rewrite S1, S2.
  replace (integrate_const fuel (rhs P r) dt t 0 U) with (integrate_const fuel (rhs P r) t t 0 U); [reflexivity|].
  assert (N1 : forall f y fl e, t <= e < 2 * t -> integrate_const fl f e t 1 y = Some (y, 1%nat)).
  { intros f y fl e He. destruct fl; cbn [integrate_const]; destruct (Rlt_dec 0 t) as [_|N]; try contradiction;
      (destruct (Rle_dec (INR 1 * t + t) e) as [L|_]; [cbn [INR] in L; lra | reflexivity]). }
  destruct fuel as [|fuel]; cbn [integrate_const]; destruct (Rlt_dec 0 t) as [_|N]; try contradiction;
    (destruct (Rle_dec (INR 0 * t + t) t) as [_|N]; [|cbn [INR] in N; lra]; destruct (Rle_dec (INR 0 * t + t) dt) as [_|N]; [|cbn [INR] in N; lra]);
    [reflexivity|]. rewrite !N1 by lra. reflexivity.
Qed.
Print Assumptions C96_remainder_refuted.

Example C96_remainder_example : AdvanceCell 9 (fun _ => 1) 1 1 (3 / 2) (mkAxi 2 6 2 50 (fun _ => 1)) = AdvanceCell 9 (fun _ => 1) 1 1 1 (mkAxi 2 6 2 50 (fun _ => 1)).
Proof.
  assert (E : radial_velocity (mkAxi 2 6 2 50 (fun _ => 1)) = 1) by (unfold radial_velocity; cbn [a_rho a_mr]; field).
  rewrite (C96_remainder_refuted 9 (fun _ => 1) 1 1 (3 / 2)); rewrite ?E; cbn [a_rho a_mr]; try lra. replace (1 / 1) with 1 by field. reflexivity.
Qed.

(** density, radial momentum and first partial density *)
Definition vals (b m s : R) (U : axi) : Prop := a_rho U = b /\ a_mr U = m /\ a_sp U O = s.
Lemma vals_rhs : forall P b m s U, b <> 0 -> vals b m s U -> vals (- m) (- (m * m / b)) (- (m * s)) (rhs P 1 U).
Proof. intros P b m s U Hb [E1 [E2 E3]]. unfold vals, rhs. cbn [a_rho a_mr a_sp]. rewrite E1, E2, E3. repeat split; field; exact Hb. Qed.
Lemma vals_axpy : forall h b m s b' m' s' Y K c n t, vals b m s Y -> vals b' m' s' K -> c = b + h * b' -> n = m + h * m' -> t = s + h * s' ->
  vals c n t (axpy h K Y).
Proof. intros h b m s b' m' s' Y K c n t [E1 [E2 E3]] [F1 [F2 F3]] -> -> ->. unfold vals, axpy. cbn [a_rho a_mr a_sp]. rewrite E1, E2, E3, F1, F2, F3. repeat split. Qed.
Lemma pure_gas_step : forall P, vals (3 / 2) (3 / 2) (- (2 / 3)) (rk4 (rhs P 1) 1 (mkAxi 4 0 4 50 (fun _ => 4))).
Proof.
  intro P. unfold rk4. set (U := mkAxi 4 0 4 50 (fun _ => 4)). assert (V0 : vals 4 4 4 U) by (repeat split).
  set (k1 := rhs P 1 U). assert (K1 := vals_rhs P 4 4 4 U ltac:(lra) V0). fold k1 in K1.
  set (y2 := axpy (1 / 2) k1 U). assert (Y2 : vals 2 2 (- (4)) y2) by (apply (vals_axpy _ _ _ _ _ _ _ _ _ _ _ _ V0 K1); field).
  set (k2 := rhs P 1 y2). assert (K2 := vals_rhs P 2 2 (- (4)) y2 ltac:(lra) Y2). fold k2 in K2.
  set (y3 := axpy (1 / 2) k2 U). assert (Y3 : vals 3 3 8 y3) by (apply (vals_axpy _ _ _ _ _ _ _ _ _ _ _ _ V0 K2); field).
  set (k3 := rhs P 1 y3). assert (K3 := vals_rhs P 3 3 8 y3 ltac:(lra) Y3). fold k3 in K3.
  set (y4 := axpy 1 k3 U). assert (Y4 : vals 1 1 (- (20)) y4) by (apply (vals_axpy _ _ _ _ _ _ _ _ _ _ _ _ V0 K3); field).
  set (k4 := rhs P 1 y4). assert (K4 := vals_rhs P 1 1 (- (20)) y4 ltac:(lra) Y4). fold k4 in K4.
  assert (A1 : vals (10 / 3) (10 / 3) (4 / 3) (axpy (1 / 6) k1 U)) by (apply (vals_axpy _ _ _ _ _ _ _ _ _ _ _ _ V0 K1); field).
  assert (A2 : vals (8 / 3) (8 / 3) 4 (axpy (1 / 3) k2 (axpy (1 / 6) k1 U))) by (apply (vals_axpy _ _ _ _ _ _ _ _ _ _ _ _ A1 K2); field).
  assert (A3 : vals (5 / 3) (5 / 3) (- (4)) (axpy (1 / 3) k3 (axpy (1 / 3) k2 (axpy (1 / 6) k1 U)))) by (apply (vals_axpy _ _ _ _ _ _ _ _ _ _ _ _ A2 K3); field).
  apply (vals_axpy _ _ _ _ _ _ _ _ _ _ _ _ A3 K4); field.
Qed.

(** C96 refuted for the partial densities: their right-hand side has an additional factor rho.  The mass fraction changes at the rate
    (u / r) (1 - rho) Y, and one step can make the partial density of a pure gas negative. *)
Theorem C96_species_refuted :
  (forall pressure r U s, r <> 0 -> a_rho U <> 0 ->
     (a_sp (rhs pressure r U) s * a_rho U - a_sp U s * a_rho (rhs pressure r U)) / (a_rho U * a_rho U) =
     radial_velocity U / r * (1 - a_rho U) * (a_sp U s / a_rho U)) /\
  (forall pressure, exists fuel V, let U := mkAxi 4 0 4 50 (fun _ => 4) in
     AdvanceCell fuel pressure 1 1 1 U = Stored V 1 /\ 0 < a_rho V /\ a_sp V O < 0).
Proof.
  split.
  - intros P r U s Hr Hb. unfold rhs, radial_velocity. cbn [a_rho a_sp]. field. split; assumption.
  - intro P. set (U := mkAxi 4 0 4 50 (fun _ => 4)).
    destruct (pure_gas_step P) as [EV [_ ES]]. fold U in EV, ES.
    exists 1%nat, (rk4 (rhs P 1) 1 U). cbv zeta. split; [|lra].
    unfold AdvanceCell. destruct (Rlt_dec 0 1) as [_|N]; [|lra].
    assert (ST : step_size 1 1 (a_mr U / a_rho U) = 1).
    { unfold U. cbn [a_mr a_rho]. replace (4 / 4) with 1 by field. unfold step_size. destruct (Req_EM_T 1 0); [lra|]. replace (1 / 1) with 1 by field. destruct (Rlt_dec 1 1); reflexivity. }
    rewrite ST. set (F := rk4 (rhs P 1) 1 U) in *. cbn [integrate_const]. destruct (Rlt_dec 0 1) as [_|N]; [|lra].
    destruct (Rle_dec (INR 0 * 1 + 1) 1) as [_|N]; [|cbn [INR] in N; lra]. destruct (Rle_dec (INR 1 * 1 + 1) 1) as [L|_]; [cbn [INR] in L; lra|].
    fold F. destruct (Rle_dec (a_rho F) 0); [lra | reflexivity].
Qed.
Print Assumptions C96_species_refuted.
