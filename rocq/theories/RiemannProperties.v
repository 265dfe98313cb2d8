(** C75-C78 (exact Riemann solver of the perfect gas equations). *)
From Coq Require Import List Reals ZArith Lia Lra Psatz.
From Verif Require Import GasModel GasSpec GasProofs NewtonModel NewtonSpec NewtonProofs NewtonProofs2.
From Verif Require Import RiemannModel RiemannSpec RiemannProofs RiemannProofs2 RiemannProofs3 RiemannProofs4 RiemannProofs5.
Import ListNotations.
Local Open Scope R_scope.

(** Every zero of the pressure function gives the entropy solution of the Riemann problem: all the states which the
    solver returns for the rays x = lambda t together are a weak solution which satisfies the entropy condition, and
    the solver for the interface returns its value at x = 0. *)
Theorem C75_entropy_solution : forall g l r d pM uM,
  perfect g -> admissible g l -> admissible g r ->
  length (momentum r) = length (momentum l) -> (d < length (momentum l))%nat ->
  0 < pM -> f_pressure g l r d pM = Fin 0 -> middle_velocity g l r d pM = Fin uM ->
  exists w, riemann_solution g d l r w /\
    (forall old dx dt, 0 < dt -> SolveRiemannProblemAt g old l r pM uM dt dx d = Some (w (dx / dt))) /\
    SolveFrom g l r d pM uM = Some (w 0).
Proof.
  intros g l r d pM uM Hg Hl Hr Hlen Hd Hp E1 E2.
  destruct (root_velocities g l r d Hg Hl Hr pM uM Hp E1 E2) as (_ & U1 & U2).
  exists (solution g l r d pM uM). split; [apply solution_riemann; auto|]. split.
  - intros old dx dt Hdt. apply solve_at; auto.
  - apply solve_from; auto.
Qed.
Print Assumptions C75_entropy_solution.

(** Unless the two gases separate, the pressure function has exactly one zero, thus such a solution exists.  Otherwise
    there is no zero. *)
Theorem C75_exists : forall g l r d,
  perfect g -> admissible g l -> admissible g r ->
  length (momentum r) = length (momentum l) -> (d < length (momentum l))%nat -> ~ vacuum g d l r ->
  exists pM uM w, 0 < pM /\ riemann_solution g d l r w /\
    pressure (w uM) = pM /\ speed (w uM) d = uM /\
    (forall old dx dt, 0 < dt -> SolveRiemannProblemAt g old l r pM uM dt dx d = Some (w (dx / dt))) /\
    (forall p, 0 < p -> (f_pressure g l r d p = Fin 0 <-> p = pM)).
Proof.
  intros g l r d Hg Hl Hr Hlen Hd V. destruct (root_exists g l r d Hg Hl Hr V) as (pM & Hp & E).
  destruct (root_velocity_exists g l r d Hg Hl Hr pM Hp E) as (E1 & uM & E2).
  destruct (root_velocities g l r d Hg Hl Hr pM uM Hp E1 E2) as (_ & U1 & U2).
  exists pM, uM, (solution g l r d pM uM). split; [exact Hp|]. split; [apply solution_riemann; auto|].
  assert (solution g l r d pM uM uM = left_middle g l d pM uM) as M.
  { unfold solution. destruct (Rle_dec uM uM); [|lra].
    destruct (left_near_contact g l d pM uM Hg Hl Hp ltac:(lra)) as (a & Ha & Na). apply Na. lra. }
  destruct (left_middle_prim g l d pM uM Hg Hl Hp) as (rl & Pl & El).
  rewrite M, El. split; [apply prim_pressure|]. split; [apply prim_speed; auto; lra|]. split.
  - intros old dx dt Hdt. apply solve_at; auto.
  - intros p Hp'. rewrite (f_pressure_F g l r d Hg Hl Hr) by exact Hp'. split.
    + intros H. injection H as H. apply (root_unique g l r d Hg Hl Hr); auto.
    + intros ->. f_equal. exact E.
Qed.
Print Assumptions C75_exists.

Theorem C75_vacuum : forall g l r d, perfect g -> admissible g l -> admissible g r -> vacuum g d l r ->
  forall p, 0 < p -> f_pressure g l r d p <> Fin 0.
Proof.
  intros g l r d Hg Hl Hr V p Hp E. rewrite (f_pressure_F g l r d Hg Hl Hr) in E by exact Hp. injection E as E.
  unfold vacuum in V. pose proof (vacuum_above g l r d Hg Hl Hr p 0 Hp) as H.
  change (speed r d) with (velocity r d) in V. change (speed l d) with (velocity l d) in V. lra.
Qed.
Print Assumptions C75_vacuum.

(** Two gases which collide with velocities 13/12 and -13/12: the middle pressure is 19/6. *)
Definition air : gas := mkGas (7 / 5) (5 / 2) 287.
Definition moving (u : R) : Complete := mkComplete 1 [u] (1 / 2 * (u * u) + 5 / 2) 1 (sqrt (7 / 5)).

Lemma air_perfect : perfect air.
Proof. split; cbn; lra. Qed.
Lemma moving_admissible u : admissible air (moving u).
Proof.
  split; [cbn; lra|]. split; [cbn; lra|]. split; [|split].
  - cbn. unfold kinetic. cbn. field.
  - cbn. apply sqrt_pos.
  - cbn. rewrite sqrt_sqrt by lra. field.
Qed.

Lemma collision_phi u : phi air (moving u) (19 / 6) = 13 / 12.
Proof.
  unfold phi. cbn. destruct (Rlt_dec 1 (19 / 6)); [|lra].
  replace (2 / ((7 / 5 + 1) * 1) / (19 / 6 + (7 / 5 - 1) / (7 / 5 + 1) * 1)) with (1 / 2 * (1 / 2)) by field.
  rewrite sqrt_square by lra. field.
Qed.

Lemma collision_root : f_pressure air (moving (13 / 12)) (moving (- (13 / 12))) 0 (19 / 6) = Fin 0 /\
  middle_velocity air (moving (13 / 12)) (moving (- (13 / 12))) 0 (19 / 6) = Fin 0.
Proof.
  rewrite (f_pressure_F air _ _ 0 air_perfect (moving_admissible _) (moving_admissible _)) by lra.
  rewrite (middle_velocity_fin air _ _ 0 air_perfect (moving_admissible _) (moving_admissible _)) by lra.
  unfold F. rewrite !collision_phi. unfold velocity. cbn. split; f_equal; field.
Qed.

Example C75_example : exists w, riemann_solution air 0 (moving (13 / 12)) (moving (- (13 / 12))) w /\
  SolveFrom air (moving (13 / 12)) (moving (- (13 / 12))) 0 (19 / 6) 0 = Some (w 0) /\ pressure (w 0) = 19 / 6.
Proof.
  destruct collision_root as [E1 E2].
  destruct (C75_entropy_solution air (moving (13 / 12)) (moving (- (13 / 12))) 0 (19 / 6) 0 air_perfect
    (moving_admissible _) (moving_admissible _) eq_refl ltac:(cbn; lia) ltac:(lra) E1 E2) as (w & S & _ & E).
  exists w. split; [exact S|]. split; [exact E|].
  unfold SolveFrom in E. rewrite (assertions_true air) in E by (auto using air_perfect, moving_admissible; lra).
  destruct (Rle_dec 0 0); [|lra]. unfold LeftSide0 in E. cbv zeta in E. cbn [pressure moving] in E.
  destruct (Rlt_dec 1 (19 / 6)); [|lra].
  destruct (Rlt_dec _ 0) as [_|N].
  - injection E as <-. unfold shocked. apply prim_pressure.
  - exfalso. apply N. pose proof (shock_before air (moving (13 / 12)) 0 1 air_perfect (moving_admissible _) one_sign (19 / 6) 0) as B.
    rewrite collision_phi in B. specialize (B ltac:(cbn; lra) ltac:(unfold velocity; cbn; lra)).
    unfold signal_distance in B. cbv zeta in B. cbn [pressure moving] in B. destruct (Rlt_dec 1 (19 / 6)); [|lra]. lra.
Qed.

Example C75_exists_example : exists pM uM w, 0 < pM /\ riemann_solution air 0 (moving (-1)) (moving 1) w /\ pressure (w uM) = pM.
Proof.
  assert (1 < sqrt (7 / 5)) as S by (rewrite <- sqrt_1 at 1; apply sqrt_lt_1; lra).
  assert (~ vacuum air 0 (moving (-1)) (moving 1)) as V by (unfold vacuum, speed; cbn; lra).
  destruct (C75_exists air (moving (-1)) (moving 1) 0 air_perfect (moving_admissible _) (moving_admissible _) eq_refl ltac:(cbn; lia) V)
    as (pM & uM & w & H1 & H2 & H3 & _). exists pM, uM, w. auto.
Qed.

Example C75_vacuum_example : vacuum air 0 (moving (-7)) (moving 7).
Proof.
  assert (sqrt (7 / 5) < 6 / 5) as S by (rewrite <- (sqrt_square (6 / 5)) by lra; apply sqrt_lt_1; lra).
  unfold vacuum, speed. cbn. lra.
Qed.

(** The signal speeds bound the region in which the solution differs from the initial states, they enclose the contact,
    and they are sharp: if there is a wave on a side, the solution differs from the initial state arbitrarily close to
    the signal. *)
Theorem C76_signals : forall g l r d pM uM,
  perfect g -> admissible g l -> admissible g r ->
  length (momentum r) = length (momentum l) -> (d < length (momentum l))%nat ->
  0 < pM -> f_pressure g l r d pM = Fin 0 -> middle_velocity g l r d pM = Fin uM ->
  exists sl sr, SignalsFrom g l r d pM = Some (sl, sr) /\ sl < uM < sr /\
    (forall old dx dt, 0 < dt -> dx / dt < sl -> SolveRiemannProblemAt g old l r pM uM dt dx d = Some l) /\
    (forall old dx dt, 0 < dt -> sr < dx / dt -> SolveRiemannProblemAt g old l r pM uM dt dx d = Some r) /\
    (pM <> pressure l -> forall s old, sl < s -> exists dx, sl < dx < s /\ SolveRiemannProblemAt g old l r pM uM 1 dx d <> Some l) /\
    (pM <> pressure r -> forall s old, s < sr -> exists dx, s < dx < sr /\ SolveRiemannProblemAt g old l r pM uM 1 dx d <> Some r).
Proof.
  intros g l r d pM uM Hg Hl Hr Hlen Hd Hp E1 E2.
  destruct (root_velocities g l r d Hg Hl Hr pM uM Hp E1 E2) as (_ & U1 & U2).
  assert (uM = velocity l d - 1 * phi g l pM) as U1' by lra. assert (uM = velocity r d - -1 * phi g r pM) as U2' by lra.
  assert (d < length (momentum r))%nat as Hd' by (rewrite Hlen; exact Hd).
  assert (velocity l d - signal_distance g l pM < uM) as B1.
  { destruct (Rlt_dec (pressure l) pM) as [L|L].
    - pose proof (shock_before g l d 1 Hg Hl one_sign pM uM L U1'). lra.
    - pose proof (head_tail g l d 1 Hg Hl one_sign pM uM ltac:(lra) U1') as (H1 & _ & H2). unfold signal_distance.
      destruct (Rlt_dec (pressure l) pM); lra. }
  assert (uM < velocity r d + signal_distance g r pM) as B2.
  { destruct (Rlt_dec (pressure r) pM) as [L|L].
    - pose proof (shock_before g r d (-1) Hg Hr minus_sign pM uM L U2'). lra.
    - pose proof (head_tail g r d (-1) Hg Hr minus_sign pM uM ltac:(lra) U2') as (H1 & _ & H2). unfold signal_distance.
      destruct (Rlt_dec (pressure r) pM); lra. }
  exists (velocity l d - signal_distance g l pM), (velocity r d + signal_distance g r pM).
  split; [unfold SignalsFrom; rewrite (assertions_true g) by auto; reflexivity|]. split; [lra|]. split; [|split; [|split]].
  - intros old dx dt Hdt H. rewrite solve_at by auto. f_equal. unfold solution. destruct (Rle_dec (dx / dt) uM); [|lra].
    apply left_outside; auto; lra.
  - intros old dx dt Hdt H. rewrite solve_at by auto. f_equal. unfold solution. destruct (Rle_dec (dx / dt) uM); [lra|].
    apply right_outside; auto; lra.
  - intros N s old Hs. destruct (left_tight g l d pM uM Hg Hl Hd Hp U1' N s Hs) as (x & Hx & Hxu & D).
    exists x. split; [exact Hx|]. rewrite solve_at by (auto; lra). replace (x / 1) with x by field.
    unfold solution. destruct (Rle_dec x uM); [congruence|lra].
  - intros N s old Hs. destruct (right_tight g r d pM uM Hg Hr Hd' Hp U2' N s Hs) as (x & Hx & Hxu & D).
    exists x. split; [exact Hx|]. rewrite solve_at by (auto; lra). replace (x / 1) with x by field.
    unfold solution. destruct (Rle_dec x uM); [lra|congruence].
Qed.
Print Assumptions C76_signals.

Example C76_example : exists sl sr, SignalsFrom air (moving (13 / 12)) (moving (- (13 / 12))) 0 (19 / 6) = Some (sl, sr) /\ sl < 0 < sr /\
  exists dx, sl < dx < 0 /\
    SolveRiemannProblemAt air (moving 0) (moving (13 / 12)) (moving (- (13 / 12))) (19 / 6) 0 1 dx 0 <> Some (moving (13 / 12)).
Proof.
  destruct collision_root as [E1 E2].
  destruct (C76_signals air (moving (13 / 12)) (moving (- (13 / 12))) 0 (19 / 6) 0 air_perfect
    (moving_admissible _) (moving_admissible _) eq_refl ltac:(cbn; lia) ltac:(lra) E1 E2) as (sl & sr & S & B & _ & _ & T & _).
  exists sl, sr. split; [exact S|]. split; [exact B|]. apply T; [cbn; lra | lra].
Qed.

(** The computed middle state: its velocity differs from the exact one by half the tolerance at most, unless the
    iteration ended with a residual below minus the tolerance (see C38). *)
Theorem C77_middle_state_partial : forall g l r d ps us p u,
  perfect g -> admissible g l -> admissible g r ->
  0 < ps -> f_pressure g l r d ps = Fin 0 -> middle_velocity g l r d ps = Fin us ->
  ComputeMiddleState g l r d = Middle p u -> 0 < p ->
  (Rabs (u - us) <= / 10 ^ 7 / 2 /\ exists v, f_pressure g l r d p = Fin v /\ Rabs v <= / 10 ^ 7) \/
  (p < ps /\ exists v, f_pressure g l r d p = Fin v /\ v < - / 10 ^ 7).
Proof.
  intros g l r d ps us p u Hg Hl Hr Hps E1 E2 E Hp.
  destruct (root_velocities g l r d Hg Hl Hr ps us Hps E1 E2) as (E0 & U1 & U2).
  destruct (middle_result_cases g l r d Hg Hl Hr p u E Hp) as (Eu & C).
  rewrite (f_pressure_F g l r d Hg Hl Hr p Hp). destruct C as [C|C].
  - left. split; [|eauto]. rewrite Eu, U1. apply Rle_trans with (Rabs (F g l r d p) / 2); [|lra].
    apply (velocity_error g l r d Hg Hl Hr); auto.
  - right. split; [|eauto]. destruct (Rlt_dec p ps); [assumption|]. exfalso. pose proof tol_positive.
    destruct (Req_dec p ps) as [Q|N]; [rewrite Q, E0 in C; lra|].
    pose proof (F_increasing g l r d Hg Hl Hr ps p Hps ltac:(lra)). lra.
Qed.
Print Assumptions C77_middle_state_partial.

(** If the first Newton step x1, which starts from the mean pressure, is positive, the iteration converges: it divides
    the product of residual and slope by four in every step. *)
Theorem C77_converges : forall g l r d ps us v0 s0 v1 s1 ss,
  let x0 := 1 / 2 * (pressure l + pressure r) in
  let x1 := x0 - v0 / s0 in
  perfect g -> admissible g l -> admissible g r ->
  0 < ps -> f_pressure g l r d ps = Fin 0 -> middle_velocity g l r d ps = Fin us -> df_pressure g l r ps = Fin ss ->
  f_pressure g l r d x0 = Fin v0 -> df_pressure g l r x0 = Fin s0 -> 0 < x1 ->
  f_pressure g l r d x1 = Fin v1 -> df_pressure g l r x1 = Fin s1 ->
  - v1 * s1 <= / 10 ^ 7 * ss * 4 ^ Z.to_nat 4999 ->
  exists p u, ComputeMiddleState g l r d = Middle p u /\ 0 < p /\ Rabs (u - us) <= / 10 ^ 7 / 2.
Proof.
  intros g l r d ps us v0 s0 v1 s1 ss x0 x1 Hg Hl Hr Hps E1 E2 E3 F0 D0 Hx1 F1 D1 B.
  pose proof (mean_positive g l r Hl Hr) as P0. fold x0 in P0.
  destruct (root_velocities g l r d Hg Hl Hr ps us Hps E1 E2) as (E0 & U1 & U2).
  rewrite (df_pressure_DF g l r Hg Hl Hr) in E3, D0, D1 by assumption.
  rewrite (f_pressure_F g l r d Hg Hl Hr) in F0, F1 by assumption.
  injection E3 as <-. injection F0 as <-. injection D0 as <-. injection F1 as <-. injection D1 as <-.
  destruct (converges g l r d Hg Hl Hr ps x1 Hps E0 eq_refl Hx1 B) as (p & u & E & Hp & R & Eu).
  exists p, u. split; [exact E|]. split; [exact Hp|]. rewrite Eu, U1.
  apply Rle_trans with (Rabs (F g l r d p) / 2); [|lra]. apply (velocity_error g l r d Hg Hl Hr); auto.
Qed.
Print Assumptions C77_converges.

(** In particular the iteration succeeds if the middle pressure is not below the mean pressure and the residual at the
    mean pressure is not astronomically large. *)
Theorem C77_converges_below : forall g l r d ps us v0 s0 ss,
  let x0 := 1 / 2 * (pressure l + pressure r) in
  perfect g -> admissible g l -> admissible g r ->
  x0 <= ps -> f_pressure g l r d ps = Fin 0 -> middle_velocity g l r d ps = Fin us -> df_pressure g l r ps = Fin ss ->
  f_pressure g l r d x0 = Fin v0 -> df_pressure g l r x0 = Fin s0 ->
  - v0 * s0 <= / 10 ^ 7 * ss * 4 ^ Z.to_nat 5000 ->
  exists p u, ComputeMiddleState g l r d = Middle p u /\ x0 <= p <= ps /\ Rabs (u - us) <= / 10 ^ 7 / 2.
Proof.
  intros g l r d ps us v0 s0 ss x0 Hg Hl Hr Hps E1 E2 E3 F0 D0 B.
  pose proof (mean_positive g l r Hl Hr) as P0. fold x0 in P0.
  destruct (root_velocities g l r d Hg Hl Hr ps us ltac:(lra) E1 E2) as (E0 & U1 & U2).
  rewrite (df_pressure_DF g l r Hg Hl Hr) in E3, D0 by lra. rewrite (f_pressure_F g l r d Hg Hl Hr) in F0 by assumption.
  injection E3 as <-. injection F0 as <-. injection D0 as <-.
  destruct (newton_below (f_pressure g l r d) (df_pressure g l r) (F g l r d) (DF g l r) ps (/ 10 ^ 7)
      (f_pressure_F g l r d Hg Hl Hr) (df_pressure_DF g l r Hg Hl Hr) (DF_positive g l r Hg Hl Hr)
      (F_tangent g l r d Hg Hl Hr) ltac:(lra) E0 tol_positive x0 5000 ltac:(lra) ltac:(lia) B) as (p & EN & Hp & Ep).
  exists p, (1 / 2 * (velocity l d + velocity r d) + 1 / 2 * (phi g r p - phi g l p)). split; [|split; [exact Hp|]].
  - unfold ComputeMiddleState. fold x0. rewrite EN. rewrite (middle_velocity_fin g l r d Hg Hl Hr) by lra. reflexivity.
  - rewrite U1. apply Rle_trans with (Rabs (F g l r d p) / 2); [|lra]. apply (velocity_error g l r d Hg Hl Hr); auto; lra.
Qed.
Print Assumptions C77_converges_below.

(** If the gases separate the exception is thrown, no state is returned. *)
Theorem C77_vacuum_exception : forall g l r d old, perfect g -> admissible g l -> admissible g r ->
  2 / (gamma g - 1) * (speed_of_sound l + speed_of_sound r) + / 10 ^ 7 < speed r d - speed l d ->
  ComputeMiddleState g l r d = Exception /\ SolveRiemannProblem g old l r d = None /\ ComputeSignals g l r d = None.
Proof.
  intros g l r d old Hg Hl Hr H. change (speed r d) with (velocity r d) in H. change (speed l d) with (velocity l d) in H.
  assert (ComputeMiddleState g l r d = Exception) as E by (apply vacuum_exception; auto; lra).
  split; [exact E|]. unfold SolveRiemannProblem, ComputeSignals. rewrite E. split; [|reflexivity].
  destruct (Rlt_dec 0 (density l)) as [_|N]; [|exfalso; apply N; apply Hl].
  destruct (Rlt_dec 0 (density r)) as [_|N]; [|exfalso; apply N; apply Hr]. reflexivity.
Qed.
Print Assumptions C77_vacuum_exception.

(** The collision meets the hypotheses of [C77_converges_below]. *)
Example C77_example : exists p u, ComputeMiddleState air (moving (13 / 12)) (moving (- (13 / 12))) 0 = Middle p u /\
  1 <= p <= 19 / 6 /\ Rabs u <= / 10 ^ 7 / 2.
Proof.
  destruct collision_root as [E1 E2]. set (l := moving (13 / 12)) in *. set (r := moving (- (13 / 12))) in *.
  assert (1 / 2 * (pressure l + pressure r) = 1) as X0 by (cbn; field).
  pose proof (C77_converges_below air l r 0 (19 / 6) 0 (- (13 / 6)) (DF air l r 1) (DF air l r (19 / 6))) as C.
  cbv zeta in C. rewrite X0 in C.
  destruct C as (p & u & E & B & V); auto using air_perfect.
  - apply moving_admissible.
  - apply moving_admissible.
  - lra.
  - apply df_pressure_DF; auto using air_perfect; try apply moving_admissible. lra.
  - rewrite (f_pressure_F air) by (auto using air_perfect; try apply moving_admissible; lra). f_equal. unfold F.
    pose proof (phi_p0 air l air_perfect (moving_admissible _)) as P1. pose proof (phi_p0 air r air_perfect (moving_admissible _)) as P2.
    cbn [pressure l r moving] in P1, P2. rewrite P1, P2.
    unfold velocity. cbn. field.
  - apply df_pressure_DF; auto using air_perfect; try apply moving_admissible. lra.
  - assert (1 < sqrt (7 / 5)) as S by (rewrite <- sqrt_1 at 1; apply sqrt_lt_1; lra).
    assert (DF air l r 1 <= 2) as D1.
    { unfold DF, dphi. cbn [pressure l r moving]. destruct (Rlt_dec 1 1); [lra|]. unfold dphi_r. cbn.
      replace (1 / 1) with 1 by field. rewrite Rpower_base_1. assert (/ (1 * sqrt (7 / 5)) <= / 1) by (apply Rinv_le_contravar; lra). lra. }
    assert (1 / 2 <= DF air l r (19 / 6)) as D2.
    { unfold DF, dphi. cbn [pressure l r moving]. destruct (Rlt_dec 1 (19 / 6)); [|lra]. unfold dphi_s, shock_A, shock_B. cbn.
      replace (2 / ((7 / 5 + 1) * 1) / ((7 / 5 - 1) / (7 / 5 + 1) * 1 + 19 / 6)) with (1 / 2 * (1 / 2)) by field.
      rewrite sqrt_square by lra. lra. }
    assert (10 ^ 8 <= 4 ^ Z.to_nat 5000) as P.
    { apply Rle_trans with (4 ^ 14); [lra|]. apply Rle_pow; [lra|lia]. }
    apply Rle_trans with 5; [lra|]. apply Rle_trans with (/ 10 ^ 7 * (1 / 2) * 10 ^ 8); [lra|].
    apply Rmult_le_compat; [lra| lra | |exact P]. apply Rmult_le_compat_l; lra.
  - exists p, u. split; [exact E|]. split; [exact B|]. rewrite Rminus_0_r in V. exact V.
Qed.

Example C77_vacuum_example : ComputeMiddleState air (moving (-7)) (moving 7) 0 = Exception.
Proof.
  apply (C77_vacuum_exception air (moving (-7)) (moving 7) 0 (moving 0) air_perfect (moving_admissible _) (moving_admissible _)).
  assert (sqrt (7 / 5) < 6 / 5) as S by (rewrite <- (sqrt_square (6 / 5)) by lra; apply sqrt_lt_1; lra).
  unfold speed. cbn. lra.
Qed.

(** The full claim fails: if a Newton step hits zero exactly, the derivative there is infinite and the iteration stays at
    zero until it gives up silently.  Two gases which move away from each other with Mach number 1 / gamma. *)
Definition receding (g : gas) (s : R) : Complete :=
  mkComplete (gamma g) [s] (1 / (2 * gamma g) + 1 / (gamma g - 1)) 1 1.

Theorem C77_stuck_refuted : forall g old, perfect g -> gamma g <= 1000 ->
  let l := receding g (-1) in let r := receding g 1 in
  admissible g l /\ admissible g r /\ ~ vacuum g 0 l r /\
  ComputeMiddleState g l r 0 = Middle 0 0 /\ SolveRiemannProblem g old l r 0 = None /\ ComputeSignals g l r 0 = None.
Proof.
  intros g old Hg Hle l r. pose proof Hg as [G _].
  assert (forall s, s * s = 1 -> admissible g (receding g s)) as A.
  { intros s Hs. split; [cbn; lra|]. split; [cbn; lra|]. split; [|split; cbn; lra].
    cbn. unfold kinetic. cbn. replace (s / gamma g * (s / gamma g)) with (s * s / (gamma g * gamma g)) by (field; lra).
    rewrite Hs. field. lra. }
  assert (admissible g l) as Al by (apply A; lra). assert (admissible g r) as Ar by (apply A; lra).
  assert (velocity r 0 - velocity l 0 = 2 / gamma g) as DV by (unfold velocity; cbn; field; lra).
  assert (2 / gamma g - 2 / (gamma g - 1) * (1 + 1) = - (2 * (gamma g + 1) / (gamma g * (gamma g - 1)))) as Gap by (field; lra).
  assert (0 < 2 * (gamma g + 1) / (gamma g * (gamma g - 1))) as GapP.
  { apply Rdiv_lt_0_compat; [lra|]. apply Rmult_lt_0_compat; lra. }
  assert (2 / 1000 <= 2 / gamma g) as F0 by (unfold Rdiv; apply Rmult_le_compat_l; [lra|]; apply Rinv_le_contravar; lra).
  assert (/ 10 ^ 7 < 2 * (gamma g + 1) / (gamma g * (gamma g - 1))) as GapT.
  { apply Rlt_le_trans with (2 / 1000); [lra|]. apply Rle_trans with (2 / gamma g); [exact F0|].
    replace (2 * (gamma g + 1) / (gamma g * (gamma g - 1))) with (2 / gamma g * ((gamma g + 1) / (gamma g - 1))) by (field; lra).
    assert (1 <= (gamma g + 1) / (gamma g - 1)).
    { apply Rmult_le_reg_r with (gamma g - 1); [lra|]. replace ((gamma g + 1) / (gamma g - 1) * (gamma g - 1)) with (gamma g + 1) by (field; lra). lra. }
    assert (0 < 2 / gamma g) by (apply Rdiv_lt_0_compat; lra). nra. }
  assert (ComputeMiddleState g l r 0 = Middle 0 0) as E.
  { unfold ComputeMiddleState. replace (1 / 2 * (pressure l + pressure r)) with 1 by (cbn; field).
    assert (NewtonIteration (f_pressure g l r 0) (df_pressure g l r) 1 (/ 10 ^ 7) 5000 = Returned 0) as EN.
    { unfold NewtonIteration. replace (Z.to_nat 5000) with (S (Z.to_nat 4999)) by lia. cbn [newton_loop].
      assert (f_pressure g l r 0 1 = Fin (2 / gamma g)) as F1.
      { rewrite (f_pressure_F g l r 0 Hg Al Ar) by lra. f_equal. unfold F.
        pose proof (phi_p0 g l Hg Al) as P1. pose proof (phi_p0 g r Hg Ar) as P2. cbn [pressure l r receding] in P1, P2.
        rewrite P1, P2. rewrite DV. ring. }
      assert (df_pressure g l r 1 = Fin (2 / gamma g)) as D1.
      { rewrite (df_pressure_DF g l r Hg Al Ar) by lra. f_equal. unfold DF, dphi. cbn [pressure l r receding].
        destruct (Rlt_dec 1 1); [lra|]. pose proof (dphi_r_p0 g l Hg Al) as P1. pose proof (dphi_r_p0 g r Hg Ar) as P2.
        cbn [pressure l r receding density speed_of_sound] in P1, P2. rewrite P1, P2. field. lra. }
      rewrite F1. cbn [abs_gt]. rewrite Rabs_right by lra. destruct (Rlt_dec (/ 10 ^ 7) (2 / gamma g)) as [_|N]; [|lra].
      rewrite D1. cbn [next_value]. destruct (Req_EM_T (2 / gamma g) 0); [lra|].
      replace (1 - 2 / gamma g / (2 / gamma g)) with 0 by (field; lra). cbn [next_x].
      destruct (Rlt_dec 0 0); [lra|]. rewrite (stuck_loop g l r 0 Hg Al Ar).
      - rewrite (f_pressure_zero g l r 0 Hg Al Ar). cbn [gt Nat.eqb andb]. rewrite DV.
        change (speed_of_sound l) with 1. change (speed_of_sound r) with 1. rewrite Gap.
        change (0 <=? 5000)%Z with true. cbn [andb]. destruct (Rlt_dec (/ 10 ^ 7) _); [lra|reflexivity].
      - rewrite DV. change (speed_of_sound l) with 1. change (speed_of_sound r) with 1. rewrite Gap, Rabs_Ropp, Rabs_right by lra. exact GapT. }
    rewrite EN. unfold middle_velocity. rewrite (f_side_zero g Hg l Al), (f_side_zero g Hg r Ar). cbn [dadd dscale].
    f_equal. change (speed_of_sound l) with 1. change (speed_of_sound r) with 1. unfold velocity. cbn. field. lra. }
  split; [exact Al|]. split; [exact Ar|]. split; [|split; [exact E|]].
  - unfold vacuum. change (speed r 0) with (velocity r 0). change (speed l 0) with (velocity l 0). rewrite DV.
    change (speed_of_sound l) with 1. change (speed_of_sound r) with 1. lra.
  - unfold SolveRiemannProblem, ComputeSignals. rewrite E. unfold SolveFrom, SignalsFrom, assertions.
    destruct (Rlt_dec 0 0); [lra|]. rewrite !Bool.andb_false_r.
    destruct (Rlt_dec 0 (density l)) as [_|N]; [|exfalso; apply N; apply Al].
    destruct (Rlt_dec 0 (density r)) as [_|N]; [|exfalso; apply N; apply Ar]. split; reflexivity.
Qed.
Print Assumptions C77_stuck_refuted.

Example C77_stuck_example : exists g, perfect g /\ gamma g <= 1000 /\ ComputeMiddleState g (receding g (-1)) (receding g 1) 0 = Middle 0 0.
Proof.
  exists air. split; [apply air_perfect|]. split; [cbn; lra|].
  apply (C77_stuck_refuted air (moving 0) air_perfect). cbn. lra.
Qed.

(** Identical states: the solver returns the state, Godunov's flux is the physical flux. *)
Theorem C78_consistent : forall g q d old, perfect g -> admissible g q -> (d < length (momentum q))%nat ->
  SolveRiemannProblem g old q q d = Some q /\
  exists f, GodunovFlux g old q q d = Some f /\ forall c, (forall k, c = Momentum k -> (k < length (momentum q))%nat) -> component c f = transport c q d.
Proof.
  intros g q d old Hg Hq Hd.
  assert (SolveRiemannProblem g old q q d = Some q) as E.
  { unfold SolveRiemannProblem. destruct (Rlt_dec 0 (density q)) as [_|N]; [|exfalso; apply N; apply Hq].
    rewrite equal_middle by auto. rewrite (solve_from g q q d); auto.
    - f_equal. apply equal_solution; auto.
    - apply Hq.
    - rewrite phi_p0 by auto. ring.
    - rewrite phi_p0 by auto. ring. }
  split; [exact E|]. exists (Flux q d). split; [unfold GodunovFlux; rewrite E; reflexivity|].
  intros c Hc. apply flux_component; auto. apply Hq.
Qed.
Print Assumptions C78_consistent.

(** Godunov's flux is the physical flux of the entropy solution at the interface, whenever the middle state is exact. *)
Theorem C78_godunov : forall g l r d old pM uM,
  perfect g -> admissible g l -> admissible g r ->
  length (momentum r) = length (momentum l) -> (d < length (momentum l))%nat ->
  ComputeMiddleState g l r d = Middle pM uM -> 0 < pM -> f_pressure g l r d pM = Fin 0 ->
  exists w f, riemann_solution g d l r w /\ SolveRiemannProblem g old l r d = Some (w 0) /\
    GodunovFlux g old l r d = Some f /\
    forall c, (forall k, c = Momentum k -> (k < length (momentum l))%nat) -> component c f = transport c (w 0) d.
Proof.
  intros g l r d old pM uM Hg Hl Hr Hlen Hd E Hp Er.
  assert (middle_velocity g l r d pM = Fin uM) as Ev.
  { unfold ComputeMiddleState in E. destruct (NewtonIteration _ _ _ _ _) as [x|]; [|discriminate].
    destruct (middle_velocity g l r d x) eqn:V; try discriminate. injection E as -> ->. exact V. }
  destruct (C75_entropy_solution g l r d pM uM Hg Hl Hr Hlen Hd Hp Er Ev) as (w & S & _ & E0).
  assert (SolveRiemannProblem g old l r d = Some (w 0)) as E1.
  { unfold SolveRiemannProblem. destruct (Rlt_dec 0 (density l)) as [_|N]; [|exfalso; apply N; apply Hl].
    destruct (Rlt_dec 0 (density r)) as [_|N]; [|exfalso; apply N; apply Hr]. rewrite E. exact E0. }
  destruct S as (S1 & S2 & S3). pose proof (S3 0) as [A0 L0].
  exists w, (Flux (w 0) d). split; [split; [exact S1|split; [exact S2|exact S3]]|]. split; [exact E1|].
  split; [unfold GodunovFlux; rewrite E1; reflexivity|]. intros c Hc. apply flux_component; [apply A0|].
  intros k Hk. rewrite L0. auto.
Qed.
Print Assumptions C78_godunov.

(** A contact discontinuity with a shear layer, densities 1 and 2, is solved exactly. *)
Definition layer (rho v c : R) : Complete := mkComplete rho [rho * 3; rho * v] (1 / 2 * rho * (9 + v * v) + 5 / 2) 1 c.

Lemma layer_admissible rho v : 0 < rho -> admissible air (layer rho v (sqrt (7 / (5 * rho)))).
Proof.
  intros H. assert (0 < 7 / (5 * rho)) as P by (apply Rdiv_lt_0_compat; lra).
  split; [exact H|]. split; [cbn; lra|]. split; [|split].
  - cbn. unfold kinetic. cbn. field. lra.
  - apply sqrt_pos.
  - cbn. rewrite sqrt_sqrt by lra. field. lra.
Qed.

Example C78_example : let l := layer 1 4 (sqrt (7 / (5 * 1))) in let r := layer 2 (-4) (sqrt (7 / (5 * 2))) in
  exists w f, riemann_solution air 0 l r w /\ GodunovFlux air l l r 0 = Some f /\ component (Momentum 1) f = transport (Momentum 1) (w 0) 0.
Proof.
  intros l r. assert (admissible air l) as Al by (apply layer_admissible; lra). assert (admissible air r) as Ar by (apply layer_admissible; lra).
  assert (f_pressure air l r 0 1 = Fin 0) as E.
  { rewrite (f_pressure_F air l r 0 air_perfect Al Ar) by lra. f_equal. unfold F.
    pose proof (phi_p0 air l air_perfect Al) as P1. pose proof (phi_p0 air r air_perfect Ar) as P2. cbn [pressure l r layer] in P1, P2.
    rewrite P1, P2. unfold velocity. cbn. field. }
  assert (ComputeMiddleState air l r 0 = Middle 1 3) as M.
  { unfold ComputeMiddleState. replace (1 / 2 * (pressure l + pressure r)) with 1 by (cbn; field).
    unfold NewtonIteration. rewrite E. replace (Z.to_nat 5000) with (S (Z.to_nat 4999)) by lia. cbn [newton_loop abs_gt].
    rewrite Rabs_R0. pose proof tol_positive. destruct (Rlt_dec (/ 10 ^ 7) 0); [lra|]. cbn [Nat.eqb]. rewrite Bool.andb_false_r. cbn [andb].
    rewrite (middle_velocity_fin air l r 0 air_perfect Al Ar) by lra. f_equal.
    pose proof (phi_p0 air l air_perfect Al) as P1. pose proof (phi_p0 air r air_perfect Ar) as P2. cbn [pressure l r layer] in P1, P2.
    rewrite P1, P2. unfold velocity. cbn. field. }
  destruct (C78_godunov air l r 0 l 1 3 air_perfect Al Ar eq_refl ltac:(cbn; lia) M ltac:(lra) E) as (w & f & H1 & _ & H3 & H4).
  exists w, f. split; [exact H1|]. split; [exact H3|]. apply H4. intros k Hk. injection Hk as <-. cbn. lia.
Qed.
