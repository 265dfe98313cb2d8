(** Properties C134 and C135: advection with given fluxes and the averages which produce these fluxes. *)
From Coq Require Import List Reals ZArith Lra Lia Bool Permutation.
From Verif Require Import SplitModel LowMachModel LowMachSpec LowMachProofs LowMachProofs2.
Import ListNotations.
Local Open Scope R_scope.

(** * C134: the advection *)

(** Cells with the same quotient and velocity: the flux carries exactly these with the given mass flux, whatever the flux, the time step and the densities are. *)
Theorem C134_consistent (q0 q1 q2 q3 : cell) (Pv1 Pv2 Pv3 dt dx c u v : R) :
  (forall q, In q [q0; q1; q2; q3] -> PTinverse q = c /\ momentum0 q / density q = u /\ momentum1 q / density q = v) ->
  let F := ComputeNumericFlux q0 q1 q2 q3 Pv1 Pv2 Pv3 dt dx in
  f_PTdensity F = Pv2 /\ f_density F = c * Pv2 /\ f_momentum0 F = u * f_density F /\ f_momentum1 F = v * f_density F.
Proof. intros H. cbv zeta. rewrite (flux_mixed _ _ _ _ _ _ _ _ _ c u v H). cbn. repeat split; ring. Qed.
Print Assumptions C134_consistent.

(** The flux comes from the side the flow comes from: with positive flux the last cell has no influence, with negative flux the first one; without flux nothing is carried. *)
Theorem C134_upwind (q0 q1 q2 q3 q0' q3' : cell) (Pv1 Pv2 Pv3 dt dx : R) :
  (0 < Pv2 -> ComputeNumericFlux q0 q1 q2 q3 Pv1 Pv2 Pv3 dt dx = ComputeNumericFlux q0 q1 q2 q3' Pv1 Pv2 Pv3 dt dx) /\
  (Pv2 < 0 -> ComputeNumericFlux q0 q1 q2 q3 Pv1 Pv2 Pv3 dt dx = ComputeNumericFlux q0' q1 q2 q3 Pv1 Pv2 Pv3 dt dx) /\
  (Pv2 = 0 -> ComputeNumericFlux q0 q1 q2 q3 Pv1 Pv2 Pv3 dt dx = mkCons 0 0 0 0).
Proof.
  destruct (upwind_cases Pv2) as [[S E] | [[S E] | [S E]]]; split; [|split| |split| |split]; try (intros; lra); intros _;
    unfold ComputeNumericFlux; cbv zeta; rewrite E; f_equal; try ring; rewrite S; ring.
Qed.
Print Assumptions C134_upwind.

(** With constant speed and straight profiles the flux is exact: it carries the values which pass the face at half of the time step.
    [x] are the centres of the cells, the face lies at [0]. *)
Theorem C134_exact_for_straight_profiles (q0 q1 q2 q3 : cell) (P Pv dt dx c0 c1 u0 u1 v0 v1 : R) : 0 < P -> 0 < dx ->
  (forall q x, In (q, x) [(q0, - (3 / 2) * dx); (q1, - (1 / 2) * dx); (q2, 1 / 2 * dx); (q3, 3 / 2 * dx)] ->
     PTdensity q = P /\ PTinverse q = c0 + c1 * x /\ momentum0 q / density q = u0 + u1 * x /\ momentum1 q / density q = v0 + v1 * x) ->
  let F := ComputeNumericFlux q0 q1 q2 q3 Pv Pv Pv dt dx in
  let x := - (Pv / P * (dt / 2)) in
  f_PTdensity F = Pv /\ f_density F = Pv * (c0 + c1 * x) /\
  f_momentum0 F = Pv * (c0 + c1 * x) * (u0 + u1 * x) /\ f_momentum1 F = Pv * (c0 + c1 * x) * (v0 + v1 * x).
Proof.
  intros HP Hdx H. cbv zeta.
  pose proof (H q0 _ ltac:(cbn; left; reflexivity)) as (D0 & A0 & B0 & C0). pose proof (H q1 _ ltac:(cbn; right; left; reflexivity)) as (D1 & A1 & B1 & C1).
  pose proof (H q2 _ ltac:(cbn; right; right; left; reflexivity)) as (D2 & A2 & B2 & C2).
  pose proof (H q3 _ ltac:(cbn; right; right; right; left; reflexivity)) as (D3 & A3 & B3 & C3).
  unfold ComputeNumericFlux, LimitSlopes. cbv zeta. cbn [f_PTdensity f_density f_momentum0 f_momentum1].
  rewrite A0, A1, A2, A3, B0, B1, B2, B3, C0, C1, C2, C3, D1, D2.
  destruct (upwind_cases Pv) as [[S E] | [[S E] | [S E]]]; rewrite E; repeat split; try (rewrite S; ring); field; lra.
Qed.
Print Assumptions C134_exact_for_straight_profiles.

(** A flow with the same quotient and velocity everywhere keeps them in one sweep, although PTdensity and density change. *)
Theorem C134_keeps_uniform_quotient_and_velocity (Pv : field) (dx dt c u v : R) (dir : bool) (l : level) :
  c <> 0 -> (forall i j, l_PTdensity l i j <> 0) -> mixed c u v l ->
  (forall i j, l_PTdensity (sweep Pv dx dt dir l) i j <> 0) -> mixed c u v (sweep Pv dx dt dir l).
Proof.
  intros Hc HP Hm HP' i j. destruct (sweep_mixed Pv dx dt c u v dir l Hc HP Hm i j) as (E1 & E2 & E3 & E4).
  split; [apply E4, HP'|auto].
Qed.
Print Assumptions C134_keeps_uniform_quotient_and_velocity.

(** With periodic boundaries no splitting method, order of directions or time step changes the totals of mass, momentum and PTdensity, not even if it stops with an error. *)
Theorem C134_conserves (n m : nat) lowest maximum fabs meth cycle subcycle (Pv : bool -> field) (dx : bool -> R) (dt : R) (l : level) :
  level_periodic n m l -> (forall d, periodic n m (Pv d)) ->
  let l' := fst (advect lowest maximum fabs meth cycle subcycle Pv dx dt l) in
  level_periodic n m l' /\ total n m (l_density l') = total n m (l_density l) /\ total n m (l_momentum0 l') = total n m (l_momentum0 l) /\
  total n m (l_momentum1 l') = total n m (l_momentum1 l) /\ total n m (l_PTdensity l') = total n m (l_PTdensity l).
Proof.
  intros Hl HP. cbv zeta.
  pose proof (advect_invariant (fun l' => level_periodic n m l' /\ totals n m l' = totals n m l) lowest maximum fabs meth cycle subcycle Pv dx) as I.
  assert (Q : level_periodic n m (fst (advect lowest maximum fabs meth cycle subcycle Pv dx dt l)) /\ totals n m (fst (advect lowest maximum fabs meth cycle subcycle Pv dx dt l)) = totals n m l).
  { apply I; [|auto]. intros dir dt' l' [H1 H2]. split; [apply sweep_periodic; auto|]. rewrite sweep_totals; auto. }
  destruct Q as [Q1 Q2]. split; [exact Q1|]. unfold totals in Q2. inversion Q2. auto.
Qed.
Print Assumptions C134_conserves.

(** The stable time step is positive, no advection velocity crosses more than one cell in it, and it is the largest such step which can be represented. *)
Theorem C134_stable_dt (lowest maximum : R) (l : level) (Pv : field) (dx : R) (dir : bool) (fabs : list (list (Z * Z))) :
  lowest <= 0 -> 0 < dx -> 0 < maximum ->
  let r := stable_dt lowest maximum l Pv dx dir fabs in
  0 < r <= maximum /\
  (forall cells c, In cells fabs -> In c cells -> Rabs (advect_velocity l Pv dir c) * r <= dx) /\
  (r = maximum \/ exists cells c, In cells fabs /\ In c cells /\ Rabs (advect_velocity l Pv dir c) * r = dx).
Proof. apply level_dt. Qed.
Print Assumptions C134_stable_dt.

(** What every split step therefore obeys: a step is only done if no advection velocity crosses more than one cell. *)
Theorem C134_steps_are_stable lowest maximum fabs (Pv : bool -> field) (dx : bool -> R) (dir : bool) (dt : R) (l l' : level) :
  lowest <= 0 -> 0 < dx dir -> 0 < maximum -> 
  (split_step lowest maximum fabs Pv dx dir dt l = (l', None) ->
     forall cells c, In cells fabs -> In c cells -> Rabs (advect_velocity l (Pv dir) dir c) * dt <= dx dir) /\
  (forall e, split_step lowest maximum fabs Pv dx dir dt l = (l', Some e) -> l' = l /\ err_dt e < dt /\ 0 < err_dt e /\
     forall cells c, In cells fabs -> In c cells -> Rabs (advect_velocity l (Pv dir) dir c) * err_dt e <= dx dir).
Proof.
  intros Hlow Hdx Hmax. destruct (level_dt lowest maximum l (Pv dir) (dx dir) dir fabs Hlow Hdx Hmax) as (H1 & H2 & _).
  unfold split_step. cbv zeta. set (r := stable_dt _ _ _ _ _ _ _) in *. clearbody r. destruct (Rlt_dec r dt) as [c|c].
  - split; [discriminate|]. intros e E. inversion E. subst. cbn [err_dt]. split; [reflexivity|]. split; [exact c|]. split; [lra|exact H2].
  - split; [|discriminate]. intros _ cells k Hc Hk. apply Rle_trans with (2 := H2 cells k Hc Hk).
    apply Rmult_le_compat_l; [apply Rabs_pos|lra].
Qed.
Print Assumptions C134_steps_are_stable.

(** The time step with one thread: the smallest of all local time steps, in whatever order the patches are visited. *)
Theorem C134_one_thread (local : nat -> R) (maximum : R) (order : list nat) :
  let r := run_threads local maximum (one_after_the_other order) in
  r <= maximum /\ (forall k, In k order -> r <= local k) /\ (r = maximum \/ exists k, In k order /\ r = local k).
Proof.
  cbv zeta. unfold run_threads. rewrite threads_sequential. cbn [fst].
  destruct (fold_min_le local order maximum) as (H1 & H2 & H3). split; [exact H1|]. split; [exact H2|exact H3].
Qed.
Print Assumptions C134_one_thread.

(** With several threads the update of the minimum is not protected: there is a schedule of two patches whose result is larger than one of the local time steps. *)
Theorem C134_threads_refuted : exists (local : nat -> R) (maximum : R) (order : list nat) (s : list access),
  complete_schedule order s /\ exists k, In k order /\ local k < run_threads local maximum s.
Proof.
  exists (fun k => if Nat.eqb k 0 then 1 else 2), 10, [0; 1]%nat, [Read 0; Read 1; Write 0; Write 1]%nat. split.
  - split.
    + cbn. apply perm_skip. apply perm_swap.
    + intros k [<- | [<- | []]]; [exists [], [Read 1], [Write 1]; reflexivity|exists [Read 0], [Write 0], []; reflexivity].
  - exists 0%nat. split; [cbn; auto|]. unfold run_threads, run_access. cbn.
    unfold Rmin. destruct (Rle_dec 2 10); lra.
Qed.
Print Assumptions C134_threads_refuted.

(** The slopes are not limited: a step which respects the stable time step can create new extrema of the quotient of density and PTdensity.
    Here the quotient is 1 on the left and 2 on the right, with PTdensity and flux 1. *)
Theorem C134_bounds_refuted : exists (l : level) (Pv : field) (dx dt lo hi : R),
  0 < dt /\ 0 < dx /\ admissible l /\ (forall i j, lo <= l_PTinverse l i j <= hi) /\
  (forall c, Rabs (advect_velocity l Pv true c) * dt <= dx) /\
  exists i j, l_PTinverse (sweep Pv dx dt true l) i j < lo.
Proof.
  set (chi := fun i (_ : Z) => if Z.ltb i 0 then 1 else 2). exists (mkLevel chi (fun _ _ => 0) (fun _ _ => 0) (fun _ _ => 1) chi), (fun _ _ => 1), 1, (1 / 2), 1, 2.
  split; [lra|]. split; [lra|]. split; [|split; [|split]].
  - intros i j. cbn. unfold chi. destruct (i <? 0)%Z; repeat split; try lra; field.
  - intros i j. cbn. unfold chi. destruct (i <? 0)%Z; lra.
  - intros [i j]. unfold advect_velocity, get, shift. cbn. replace (1 / 2 * (1 + 1) / 1) with 1 by field. rewrite Rabs_R1. lra.
  - exists (-1)%Z, 0%Z. unfold sweep, CompleteFromCons. cbn [l_PTinverse]. unfold get, shift, flux_at, at_cell, ComputeNumericFlux, LimitSlopes. cbn [fst snd PTinverse PTdensity f_density f_PTdensity l_density l_PTdensity l_PTinverse l_momentum0 l_momentum1 density momentum0 momentum1].
    unfold upwind_sign. destruct (Rlt_dec 0 1); [|lra]. unfold chi. cbn. unfold get. destruct (Rlt_dec 0 1); [|lra].
    match goal with |- ?a / ?b < _ => replace b with 1 by field; replace a with (15 / 16) by field end. lra.
Qed.
Print Assumptions C134_bounds_refuted.

(** The stable time step looks at the mean of the fluxes of both faces of a cell only: a step which respects it can make PTdensity negative where the flow diverges. *)
Theorem C134_positive_refuted : exists (l : level) (Pv : bool -> field) (dx : bool -> R) (dt : R) (l' : level),
  0 < dt /\ admissible l /\ (forall x, 0 < dx x) /\
  split_step (-10) 10 [[(0%Z, 0%Z)]] Pv dx true dt l = (l', None) /\ l_PTdensity l' 0%Z 0%Z < 0.
Proof.
  exists (mkLevel (fun _ _ => 1) (fun _ _ => 0) (fun _ _ => 0) (fun _ _ => 1) (fun _ _ => 1)),
    (fun _ i _ => if Z.eqb i 1 then 1 else -1), (fun _ => 1), 1. eexists. split; [lra|]. split; [|split; [intros; lra|split]].
  - intros i j. cbn. repeat split; try lra; field.
  - unfold split_step, stable_dt, stable_dt_fab, advect_velocity, get, shift. cbn.
    replace (1 / 2 * (-1 + 1) / 1) with 0 by field. rewrite Rabs_R0. rewrite (Rmax_right (-10) 0) by lra.
    destruct (Rlt_dec 0 0); [lra|]. rewrite Rmin_left by lra. destruct (Rlt_dec 10 1); [lra|]. reflexivity.
  - rewrite sweep_PT. unfold get, shift. cbn. lra.
Qed.
Print Assumptions C134_positive_refuted.

(** A flow to the right past the step from 1 to 2: quotient, velocity and PTdensity are uniform, the flux is not. *)
Definition C134_level : level := mkLevel (fun i _ => if Z.ltb i 0 then 2 else 4) (fun i _ => if Z.ltb i 0 then 6 else 12) (fun i _ => if Z.ltb i 0 then 10 else 20)
  (fun i _ => if Z.ltb i 0 then 1 else 2) (fun _ _ => 2).
Example C134_example : mixed 2 3 5 C134_level /\
  (forall i j, l_PTdensity C134_level i j <> 0) /\
  (forall i j, l_PTdensity (sweep (fun i _ => if Z.ltb i 0 then 1 else 3 / 2) 1 (1 / 2) true C134_level) i j <> 0) /\
  mixed 2 3 5 (sweep (fun i _ => if Z.ltb i 0 then 1 else 3 / 2) 1 (1 / 2) true C134_level) /\
  (let q k := mkCell ((2 + k) * 4) ((2 + k) * 4 * (5 + k)) ((2 + k) * 4 * (7 - k)) 4 (2 + k) in
   let F := ComputeNumericFlux (q (- (3 / 2) * 1)) (q (- (1 / 2) * 1)) (q (1 / 2 * 1)) (q (3 / 2 * 1)) 2 2 2 1 1 in
   f_density F = 2 * (2 + 1 * - (2 / 4 * (1 / 2))) /\ f_momentum0 F = 2 * (2 + 1 * - (2 / 4 * (1 / 2))) * (5 + 1 * - (2 / 4 * (1 / 2)))).
Proof.
  assert (M : mixed 2 3 5 C134_level).
  { intros i j. unfold C134_level. cbn. destruct (i <? 0)%Z; repeat split; lra. }
  assert (N1 : forall i j, l_PTdensity C134_level i j <> 0).
  { intros i j. unfold C134_level. cbn. destruct (i <? 0)%Z; lra. }
  assert (N2 : forall i j, l_PTdensity (sweep (fun i _ => if Z.ltb i 0 then 1 else 3 / 2) 1 (1 / 2) true C134_level) i j <> 0).
  { intros i j. rewrite sweep_PT. unfold get, shift, C134_level. cbn [fst snd l_PTdensity]. destruct (i <? 0)%Z, (i + 1 <? 0)%Z; lra. }
  split; [exact M|]. split; [exact N1|]. split; [exact N2|]. split.
  - apply C134_keeps_uniform_quotient_and_velocity; [lra|exact N1|exact M|exact N2].
  - intros q. cbv zeta.
    destruct (C134_exact_for_straight_profiles (q (- (3 / 2) * 1)) (q (- (1 / 2) * 1)) (q (1 / 2 * 1)) (q (3 / 2 * 1)) 4 2 1 1 2 1 5 1 7 (-1)) as (_ & E1 & E2 & _); [lra|lra| |auto].
    intros q' x [E | [E | [E | [E | []]]]]; inversion E; subst; unfold q; cbn [PTdensity PTinverse momentum0 momentum1 density]; repeat split; lra || (field; lra).
Qed.
(** Two cells with one patch each: the totals of the level after one splitting step. *)
Example C134_totals_example : let l := mkLevel (fun i _ => if Z.even i then 1 else 2) (fun _ _ => 1) (fun _ _ => 0) (fun _ _ => 1) (fun i _ => if Z.even i then 1 else 2) in
  level_periodic 2 1 l /\ total 2 1 (l_density l) = 3 /\
  total 2 1 (l_density (fst (advect (-10) 10 [[(0, 0)]; [(1, 0)]]%Z Strang 0 0 (fun d _ _ => if d then 1 else 0) (fun _ => 1) (1 / 2) l))) = 3.
Proof.
  intros l. assert (Hl : level_periodic 2 1 l).
  { repeat split; cbn [l l_density l_momentum0 l_momentum1 l_PTdensity l_PTinverse]; try reflexivity;
      rewrite Z.even_add; cbn; destruct (Z.even i); reflexivity. }
  split; [exact Hl|]. split; [unfold total; cbn; ring|].
  destruct (C134_conserves 2 1 (-10) 10 [[(0, 0)]; [(1, 0)]]%Z Strang 0 0 (fun d _ _ => if d then 1 else 0) (fun _ => 1) (1 / 2) l Hl) as (_ & E & _);
    [intros d i j; auto|].
  rewrite E. unfold total. cbn. ring.
Qed.

(** * C135: the averages *)

(** The divergence of the averaged fluxes of a cell is the mean of the divergences at its four corners. *)
Theorem C135_divergence (dx : bool -> R) (u v : field) (i j : Z) : good dx ->
  (AverageCellToFace u true (i + 1)%Z j - AverageCellToFace u true i j) / dx true
  + (AverageCellToFace v false i (j + 1)%Z - AverageCellToFace v false i j) / dx false =
  (node_div dx u v i j + node_div dx u v (i + 1)%Z j + node_div dx u v i (j + 1)%Z + node_div dx u v (i + 1)%Z (j + 1)%Z) / 4.
Proof.
  intros H. pose proof (H true). pose proof (H false). unfold AverageCellToFace, node_div.
  replace (i + 1 - 1)%Z with i by lia. replace (j + 1 - 1)%Z with j by lia. field. split; lra.
Qed.
Print Assumptions C135_divergence.

(** Hence after the advection, with every splitting method and order, PTdensity has changed by the time step times the mean divergence of P times velocity
    at the corners; it stays what it is where these divergences vanish. *)
Theorem C135_PTdensity lowest maximum fabs meth cycle subcycle (dx : bool -> R) (dt : R) (src l l' : level) (i j : Z) : good dx ->
  advect lowest maximum fabs meth cycle subcycle (RecomputeAdvectiveFluxes src) dx dt l = (l', None) ->
  let D := node_div dx (P_velocity src true) (P_velocity src false) in
  l_PTdensity l' i j = l_PTdensity l i j - dt * ((D i j + D (i + 1)%Z j + D i (j + 1)%Z + D (i + 1)%Z (j + 1)%Z) / 4) /\
  ((forall a b, D a b = 0) -> l_PTdensity l' i j = l_PTdensity l i j).
Proof.
  intros Hdx H. cbv zeta.
  assert (E : l_PTdensity l' i j = l_PTdensity l i j - dt * ((node_div dx (P_velocity src true) (P_velocity src false) i j +
     node_div dx (P_velocity src true) (P_velocity src false) (i + 1)%Z j + node_div dx (P_velocity src true) (P_velocity src false) i (j + 1)%Z +
     node_div dx (P_velocity src true) (P_velocity src false) (i + 1)%Z (j + 1)%Z) / 4)).
  { rewrite (advect_PT _ _ _ _ _ _ _ _ _ _ _ i j H). unfold RecomputeAdvectiveFluxes.
    assert (V : forall x a b, P_velocity src x a b = Pv_cells src x a b) by (intros x a b; unfold P_velocity, Pv_cells, Rdiv; destruct x; ring).
    rewrite !(node_div_ext dx (P_velocity src true) (P_velocity src false) (Pv_cells src true) (Pv_cells src false)) by apply V.
    rewrite <- (C135_divergence dx (Pv_cells src true) (Pv_cells src false) i j Hdx). pose proof (Hdx true). pose proof (Hdx false). field. split; lra. }
  split; [exact E|]. intros Z0. rewrite E, !Z0. field.
Qed.
Print Assumptions C135_PTdensity.

(** Both averages reproduce linear functions: at the middle of the face and at the node. Cell (i, j) has its centre at (i + 1/2, j + 1/2). *)
Theorem C135_linear (a b c : R) (q : field) : (forall i j, q i j = a + b * (IZR i + 1 / 2) + c * (IZR j + 1 / 2)) -> forall i j,
  AverageCellToFace q true i j = a + b * IZR i + c * (IZR j + 1 / 2) /\
  AverageCellToFace q false i j = a + b * (IZR i + 1 / 2) + c * IZR j /\
  AverageCellToNode q i j = a + b * IZR i + c * IZR j.
Proof.
  intros H i j. unfold AverageCellToFace, AverageCellToNode. rewrite !H, !minus_IZR, !plus_IZR. repeat split; field.
Qed.
Print Assumptions C135_linear.

(** The averages lie between the bounds of the cells. *)
Theorem C135_bounds (lo hi : R) (q : field) (x : bool) (i j : Z) : (forall i j, lo <= q i j <= hi) ->
  lo <= AverageCellToFace q x i j <= hi /\ lo <= AverageCellToNode q i j <= hi.
Proof.
  intros H. unfold AverageCellToFace, AverageCellToNode.
  pose proof (H (i - 1) (j - 1))%Z. pose proof (H i (j - 1)%Z). pose proof (H (i - 1)%Z j). pose proof (H i j). pose proof (H (i - 1) (j + 1))%Z. pose proof (H i (j + 1))%Z.
  pose proof (H (i + 1)%Z j). pose proof (H (i + 1) (j - 1))%Z. destruct x; lra.
Qed.
Print Assumptions C135_bounds.

(** A shear flow has no divergence: a step with it leaves PTdensity alone. *)
Example C135_example : let src := mkLevel (fun _ _ => 1) (fun _ j => if Z.even j then 1 else 2) (fun i _ => if Z.even i then -1 else 3) (fun _ _ => 1) (fun _ _ => 1) in
  let dx := fun _ : bool => 1 in
  good dx /\ (forall a b, node_div dx (P_velocity src true) (P_velocity src false) a b = 0) /\
  (exists l', advect (-10) 10 [[(0, 0)]]%Z Godunov 0 0 (RecomputeAdvectiveFluxes src) dx (1 / 4) src = (l', None) /\ forall i j, l_PTdensity l' i j = 1) /\
  AverageCellToFace (fun i _ => IZR i) true 3%Z 5%Z = 5 / 2.
Proof.
  intros src dx. assert (G : good dx) by (intros x; unfold dx; lra).
  assert (D : forall a b, node_div dx (P_velocity src true) (P_velocity src false) a b = 0).
  { intros a b. unfold node_div, P_velocity, src, dx. cbn. destruct (Z.even a), (Z.even (a - 1)), (Z.even b), (Z.even (b - 1)); field. }
  split; [exact G|]. split; [exact D|]. split.
  - destruct (advect (-10) 10 [[(0, 0)]]%Z Godunov 0 0 (RecomputeAdvectiveFluxes src) dx (1 / 4) src) as [l' r] eqn:E. exists l'.
    assert (X : forall a b, RecomputeAdvectiveFluxes src true a b = 3 / 2).
    { intros a b. unfold RecomputeAdvectiveFluxes, AverageCellToFace, Pv_cells, src. cbn. rewrite Z.even_sub, Z.even_add. cbn. destruct (Z.even b); cbn; field. }
    assert (Y : forall a b, RecomputeAdvectiveFluxes src false a b = 1).
    { intros a b. unfold RecomputeAdvectiveFluxes, AverageCellToFace, Pv_cells, src. cbn. rewrite Z.even_sub, Z.even_add. cbn. destruct (Z.even a); cbn; field. }
    assert (St : forall (d : bool) l, (forall a b, l_PTdensity l a b = 1) -> split_step (-10) 10 [[(0, 0)]]%Z (RecomputeAdvectiveFluxes src) dx d (1 / 4) l
               = (sweep (RecomputeAdvectiveFluxes src d) 1 (1 / 4) d l, None)).
    { intros d l HP. unfold split_step, stable_dt, stable_dt_fab, advect_velocity, get, shift, dx. cbn [fold_left fst snd].
      assert (V : exists k, 1 <= k <= 3 / 2 /\ 1 / 2 * (RecomputeAdvectiveFluxes src d 0%Z 0%Z + RecomputeAdvectiveFluxes src d (fst (if d then (0 + 1, 0)%Z else (0, 0 + 1)%Z)) (snd (if d then (0 + 1, 0)%Z else (0, 0 + 1)%Z))) / l_PTdensity l 0%Z 0%Z = k).
      { rewrite HP. destruct d; [exists (3 / 2); rewrite !X|exists 1; rewrite !Y]; split; lra. }
      destruct V as (k & Hk & ->). rewrite (Rabs_right k) by lra. rewrite Rmax_right by lra. destruct (Rlt_dec 0 k); [|lra].
      assert (1 / 2 <= 1 / k <= 1) by (split; [apply Rmult_le_reg_r with k|apply Rmult_le_reg_r with k]; field_simplify; lra).
      rewrite Rmin_left by lra. destruct (Rlt_dec (1 / k) (1 / 4)); [lra|]. reflexivity. }
    assert (R0 : r = None).
    { unfold advect in E. change (make_split_directions 2 0 0) with [0; 1]%nat in E. cbn [map Nat.eqb advance advance2] in E. unfold godunov2, bind in E.
      rewrite (St true src) in E by reflexivity. rewrite (St false) in E; [inversion E; reflexivity|].
      intros a b. rewrite sweep_PT. unfold get, shift. cbn [fst snd]. rewrite !X. cbn. field. }
    subst r. split; [reflexivity|]. intros i j. destruct (C135_PTdensity _ _ _ _ _ _ _ _ src src l' i j G E) as [_ Z0]. rewrite Z0 by exact D. reflexivity.
  - destruct (C135_linear (- (1 / 2)) 1 0 (fun i _ => IZR i) ltac:(intros; lra) 3%Z 5%Z) as (E & _). rewrite E. lra.
Qed.
