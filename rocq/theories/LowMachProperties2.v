(** Properties C136 and C137: the implicit and the explicit pressure step, the complete step for nearly incompressible flow. *)
From Coq Require Import List Reals ZArith Lra Lia Bool.
From Verif Require Import SplitModel LowMachModel LowMachSpec LowMachProofs LowMachProofs2 LowMachProofs3.
Import ListNotations.
Local Open Scope R_scope.

(** * C136: the backward Euler step and the projection *)

(** The new momentum solves the implicit equation with rotation and pressure gradient, whatever the linear solver returned; density, PTdensity and their quotient are not touched. *)
Theorem C136_momentum (solve : solver) (p : parameters) (dt : R) (dx : bool -> R) (o : linop) (l : level) (pi_old : field) (l' : level) (o' : linop) (pi : field) :
  good dx -> k2 p = 1 -> admissible l -> DoEulerBackward solve p dt dx o l pi_old = Some (l', o', pi) -> forall i j,
  l_momentum0 l' i j = l_momentum0 l i j + dt * f p * l_momentum1 l' i j - dt * c_p p * l_PTdensity l i j * cell_grad dx pi true i j /\
  l_momentum1 l' i j = l_momentum1 l i j - dt * f p * l_momentum0 l' i j - dt * c_p p * l_PTdensity l i j * cell_grad dx pi false i j /\
  l_density l' i j = l_density l i j /\ l_PTdensity l' i j = l_PTdensity l i j /\ l_PTinverse l' i j = l_PTinverse l i j.
Proof.
  intros Hdx Hk Ha H i j. apply (backward_momentum solve p dt dx o l pi_old l' o' pi Hdx (or_introl Hk) H i j).
  destruct (Ha i j) as (A1 & A2 & ->). apply Rgt_not_eq, Rdiv_lt_0_compat; assumption.
Qed.
Print Assumptions C136_momentum.

(** The new velocity and pressure satisfy the implicit pressure equation in every node, up to the residual the linear solver leaves; in the incompressible limit this says that
    P times velocity has no divergence.  In that limit the operator must not have a diagonal part from an earlier step. *)
Theorem C136_pressure (n m : nat) (solve : solver) (p : parameters) (dt : R) (dx : bool -> R) (eps : R) (o : linop) (l : level) (pi_old : field) (l' : level) (o' : linop) (pi : field) :
  good dx -> k2 p = 1 \/ f p = 0 -> 0 < dt -> 1 < gamma p -> 0 <= alpha_p p -> admissible l -> accurate n m dx eps solve ->
  level_periodic n m l -> op_periodic n m o -> periodic n m pi_old -> (alpha_p p = 0 -> forall i j, alpha o i j = 0) ->
  DoEulerBackward solve p dt dx o l pi_old = Some (l', o', pi) -> forall i j,
  Rabs (node_div dx (P_velocity l' true) (P_velocity l' false) i j
    + alpha_p p * Msq p / ((gamma p - 1) * dt) * node_mean (fun i j => Rpower (l_PTdensity l i j) (2 - gamma p)) i j * (pi i j - pi_old i j)) <= eps.
Proof.
  intros Hdx Hk Hdt Hg Hal Ha Hs Hl Ho Hp H0 H i j.
  destruct (backward_periodic n m solve p dt dx eps o l pi_old l' o' pi Hdx Hs Hl Ho Hp H) as (_ & _ & _ & Res).
  rewrite (backward_pressure solve p dt dx o l pi_old l' o' pi Hdx Hk Ha H i j). specialize (Res i j).
  set (K := alpha_p p * Msq p / ((gamma p - 1) * dt) * node_mean (fun i j => Rpower (l_PTdensity l i j) (2 - gamma p)) i j).
  assert (D : diagfac_nodes p dt l i j = - K) by (apply diagfac_spec; lra).
  assert (A : alpha o' i j = - K).
  { apply backward_cases in H as (Eo & _ & _). rewrite Eo. destruct (op_cross p dt (rotate_backward p dt l) o i j) as (_ & _ & _ & A1 & A2).
    destruct (Rlt_dec 0 (alpha_p p)) as [c|c]; [rewrite (A1 c); exact D|]. rewrite (A2 c).
    assert (Z0 : alpha_p p = 0) by lra. rewrite (H0 Z0). rewrite <- D. symmetry. apply diagfac_zero, Z0. }
  rewrite A, D. set (r := backward_rhs _ _ _ _ _ i j) in *. set (x := adotx o' dx pi i j) in *.
  replace (r - x + - K * pi i j - - K * pi_old i j + K * (pi i j - pi_old i j)) with (- (x - r)) by ring.
  rewrite Rabs_Ropp. exact Res.
Qed.
Print Assumptions C136_pressure.

(** Which exact solution the linear solver picks does not matter for the momentum, although the equation may have many (constants, checkerboards); with compressibility the pressure is unique too. *)
Theorem C136_unique (n m : nat) (solve1 solve2 : solver) (p : parameters) (dt : R) (dx : bool -> R) (o : linop) (l : level) (pi_old : field) (l1 l2 : level) (o1 o2 : linop) (pi1 pi2 : field) :
  (0 < n)%nat -> (0 < m)%nat -> good dx -> admissible l -> level_periodic n m l -> op_periodic n m o -> periodic n m pi_old ->
  0 < c_p p -> 0 < dt -> 1 < gamma p -> 0 <= alpha_p p -> 0 <= Msq p -> (alpha_p p = 0 -> forall i j, alpha o i j = 0) ->
  accurate n m dx 0 solve1 -> accurate n m dx 0 solve2 ->
  DoEulerBackward solve1 p dt dx o l pi_old = Some (l1, o1, pi1) -> DoEulerBackward solve2 p dt dx o l pi_old = Some (l2, o2, pi2) -> forall i j,
  l_momentum0 l1 i j = l_momentum0 l2 i j /\ l_momentum1 l1 i j = l_momentum1 l2 i j /\ (0 < alpha_p p -> 0 < Msq p -> pi1 i j = pi2 i j).
Proof.
  intros Hn Hm Hdx Ha Hl Ho Hp Hc Hdt Hg Hal HM H0 S1 S2 H1 H2 i j.
  destruct (backward_periodic n m solve1 p dt dx 0 o l pi_old l1 o1 pi1 Hdx S1 Hl Ho Hp H1) as (_ & _ & P1 & R1).
  destruct (backward_periodic n m solve2 p dt dx 0 o l pi_old l2 o2 pi2 Hdx S2 Hl Ho Hp H2) as (_ & _ & P2 & R2).
  apply backward_cases in H1 as (E1 & _ & L1). apply backward_cases in H2 as (E2 & _ & L2).
  assert (Z0 : forall x y, Rabs (x - y) <= 0 -> x = y).
  { intros x y H. pose proof (Rabs_pos (x - y)). destruct (Req_dec (x - y) 0) as [E|N]; [lra|]. apply Rabs_no_R0 in N. lra. }
  destruct (backward_solutions n m p dt dx o (rotate_backward p dt l) (backward_rhs p dt dx (rotate_backward p dt l) pi_old) pi1 pi2 Hn Hm Hdx) with (i := i) (j := j)
    as (G1 & G2 & G3); try assumption.
  - apply rotate_periodic, Hl.
  - intros a b. rewrite <- E1. apply Z0, R1.
  - intros a b. rewrite <- E2. apply Z0, R2.
  - rewrite L1, L2. assert (E : o1 = o2) by congruence. rewrite <- E.
    destruct (correct_ext p dt dx o1 pi1 pi2 (rotate_backward p dt l) i j Hdx G1 G2) as [M1 M2]. auto.
Qed.
Print Assumptions C136_unique.

(** The initial projection does not add kinetic energy and removes the divergence of P times velocity, if the operator has no diagonal part. *)
Theorem C136_projection (n m : nat) (solve : solver) (p : parameters) (dx : bool -> R) (o : linop) (l : level) (pi : field) (l' : level) :
  good dx -> 1 < gamma p -> admissible l -> accurate n m dx 0 solve ->
  level_periodic n m l -> op_periodic n m o -> periodic n m pi -> (forall i j, alpha o i j = 0) ->
  InitialProjection solve p dx o l pi = Some l' ->
  kinetic2 n m l' <= kinetic2 n m l /\ (forall i j, node_div dx (P_velocity l' true) (P_velocity l' false) i j = 0) /\
  forall i j, l_density l' i j = l_density l i j /\ l_PTdensity l' i j = l_PTdensity l i j /\ l_PTinverse l' i j = l_PTinverse l i j.
Proof.
  intros Hdx Hg Ha Hs Hl Ho Hp H0 H. unfold InitialProjection in H. cbv zeta in H.
  set (p' := mkParameters (gamma p) (c_p p) 0 (k2 p) 0 (Msq p)) in *.
  destruct (DoEulerBackward solve p' 1 dx o l pi) as [[[l1 o1] q]|] eqn:E; [|discriminate]. inversion H; subst l1. clear H.
  assert (D : forall i j, node_div dx (P_velocity l' true) (P_velocity l' false) i j = 0).
  { intros i j. assert (Z0 : Rabs (node_div dx (P_velocity l' true) (P_velocity l' false) i j
      + alpha_p p' * Msq p' / ((gamma p' - 1) * 1) * node_mean (fun i j => Rpower (l_PTdensity l i j) (2 - gamma p')) i j * (q i j - pi i j)) <= 0).
    { apply (C136_pressure n m solve p' 1 dx 0 o l pi l' o1 q); try assumption; try (cbn; lra); try (right; reflexivity). intros _. exact H0. }
    cbn [alpha_p p'] in Z0. pose proof (Rabs_pos (node_div dx (P_velocity l' true) (P_velocity l' false) i j)) as Q.
    replace (node_div dx (P_velocity l' true) (P_velocity l' false) i j + 0 * Msq p' / ((gamma p' - 1) * 1) * node_mean (fun i j => Rpower (l_PTdensity l i j) (2 - gamma p')) i j * (q i j - pi i j))
      with (node_div dx (P_velocity l' true) (P_velocity l' false) i j) in Z0 by (unfold Rdiv; ring).
    destruct (Req_dec (node_div dx (P_velocity l' true) (P_velocity l' false) i j) 0) as [Ez|N]; [exact Ez|]. apply Rabs_no_R0 in N. lra. }
  destruct (backward_periodic n m solve p' 1 dx 0 o l pi l' o1 q Hdx Hs Hl Ho Hp E) as (L' & _ & Pq & _).
  assert (M : forall i j, l_momentum0 l i j = l_momentum0 l' i j + c_p p * l_PTdensity l i j * cell_grad dx q true i j /\
                          l_momentum1 l i j = l_momentum1 l' i j + c_p p * l_PTdensity l i j * cell_grad dx q false i j /\
                          l_density l' i j = l_density l i j /\ l_PTdensity l' i j = l_PTdensity l i j /\ l_PTinverse l' i j = l_PTinverse l i j).
  { intros i j. destruct (Ha i j) as (A1 & A2 & A3).
    destruct (backward_momentum solve p' 1 dx o l pi l' o1 q Hdx (or_intror eq_refl) E i j) as (M1 & M2 & M3 & M4 & M5).
    { rewrite A3. apply Rgt_not_eq, Rdiv_lt_0_compat; assumption. }
    cbn [f c_p p'] in M1, M2. split; [lra|]. split; [lra|auto]. }
  split; [|split; [exact D|intros i j; apply (M i j)]].
  (* the work of the pressure gradient vanishes *)
  assert (W : total n m (fun i j => P_velocity l' true i j * cell_grad dx q true i j + P_velocity l' false i j * cell_grad dx q false i j) = 0).
  { assert (HP : forall x, periodic n m (P_velocity l' x)).
    { intros x i j. rewrite !mean_Pv. apply (Pv_periodic n m l' x L'). }
    pose proof (by_parts n m dx (P_velocity l' true) (P_velocity l' false) q (HP true) (HP false) Pq) as B.
    rewrite (total_ext n m _ (fun i j => 0 * q i j)) in B by (intros; rewrite D; ring). rewrite total_scal in B. lra. }
  set (Q := fun i j => c_p p * c_p p * (l_PTdensity l i j * l_PTdensity l i j) / l_density l i j
     * (cell_grad dx q true i j * cell_grad dx q true i j + cell_grad dx q false i j * cell_grad dx q false i j)).
  assert (HQ : 0 <= total n m Q).
  { apply total_nonneg. intros i j. unfold Q. destruct (Ha i j) as (A1 & _). apply Rmult_le_pos.
    - apply Rmult_le_pos; [|apply Rlt_le, Rinv_0_lt_compat, A1]. apply Rmult_le_pos; apply Rle_0_sqr.
    - apply Rplus_le_le_0_compat; apply Rle_0_sqr. }
  assert (Ek : kinetic2 n m l = kinetic2 n m l' + 2 * c_p p * 0 + total n m Q).
  { unfold kinetic2. rewrite <- W, <- total_lin. rewrite <- total_plus. apply total_ext. intros i j. destruct (M i j) as (-> & -> & E3 & E4 & _).
    unfold P_velocity, Q. rewrite E3, E4. destruct (Ha i j) as (A1 & _). field. lra. }
  lra.
Qed.
Print Assumptions C136_projection.

(** The operator of the pressure equation sends constants to zero if it has no diagonal part; so it is no surprise that it has to be told when it is singular. *)
Theorem C136_constants (o : linop) (dx : bool -> R) (c : R) (i j : Z) : adotx o dx (fun _ _ => c) i j = alpha o i j * c.
Proof. unfold adotx. cbv zeta. ring. Qed.
Print Assumptions C136_constants.

(** A vector k which has not the length one: then the step does not solve the equation with k. *)
Theorem C136_momentum_any_k_refuted : exists (solve : solver) (p : parameters) (dt : R) (dx : bool -> R) (o : linop) (l : level) (pi_old : field) l' o' pi,
  good dx /\ admissible l /\ accurate 2 1 dx 0 solve /\ DoEulerBackward solve p dt dx o l pi_old = Some (l', o', pi) /\
  l_momentum0 l' 0%Z 0%Z <> l_momentum0 l 0%Z 0%Z + dt * f p * k2 p * l_momentum1 l' 0%Z 0%Z - dt * c_p p * l_PTdensity l 0%Z 0%Z * cell_grad dx pi true 0%Z 0%Z.
Proof.
  exists pair_solver, (mkParameters (7 / 5) 1 1 2 0 0), 1, (fun _ => 1), (mkOp (fun _ _ => 0) (fun _ _ => 0) (fun _ _ => 0) (fun _ _ => 0)),
    (mkLevel (fun _ _ => 1) (fun _ _ => 1) (fun _ _ => 0) (fun _ _ => 1) (fun _ _ => 1)), (fun _ _ => 0).
  set (l := mkLevel _ _ _ _ _). set (p := mkParameters _ _ _ _ _ _). set (o := mkOp _ _ _ _).
  destruct (DoEulerBackward pair_solver p 1 (fun _ => 1) o l (fun _ _ => 0)) as [[[l' o'] pi]|] eqn:E.
  - exists l', o', pi. split; [intros x; lra|]. split; [intros i j; cbn; repeat split; lra || field|]. split; [exact pair_solver_exact|]. split; [reflexivity|].
    apply backward_cases in E as (Eo & Es & El).
    assert (B : forall i j, backward_rhs p 1 (fun _ => 1) (rotate_backward p 1 l) (fun _ _ => 0) i j = 0).
    { intros i j. unfold backward_rhs, compDivergence, Pv_cells, rotate_backward, KCross. cbn. field. }
    unfold pair_solver in Es. rewrite !B in Es.
    destruct (Req_EM_T (alpha o' 0%Z 0%Z) 0); [|discriminate]. destruct (Req_EM_T (alpha o' 1%Z 0%Z) 0); [|discriminate].
    destruct (Req_EM_T (0 + 0) 0); [|discriminate]. destruct (Req_EM_T (sigma o' 0%Z 0%Z + sigma o' 1%Z 0%Z) 0); [discriminate|]. inversion Es. clear Es.
    rewrite El. unfold correct_momentum, getFluxes, cell_grad, KCross, rotate_backward, KCross. subst pi. cbn. unfold Rdiv. rewrite !Rmult_0_l. lra.
  - exfalso. unfold DoEulerBackward in E. cbv zeta in E. destruct (pair_solver _ _) as [q|] eqn:Es; [discriminate|]. clear E.
    assert (B : forall i j, backward_rhs p 1 (fun _ => 1) (rotate_backward p 1 l) (fun _ _ => 0) i j = 0).
    { intros i j. unfold backward_rhs, compDivergence, Pv_cells, rotate_backward, KCross. cbn. field. }
    unfold pair_solver in Es. rewrite !B in Es. unfold backward_op in Es. cbv zeta in Es. destruct (Rlt_dec 0 (alpha_p p)) as [c|c]; [cbn in c; lra|].
    cbn [setSigmaCross setSigma alpha sigma o p l rotate_backward l_PTdensity l_PTinverse c_p f] in Es.
    destruct (Req_EM_T 0 0) as [_|]; [|lra]. destruct (Req_EM_T (0 + 0) 0) as [_|]; [|lra].
    match type of Es with context [Req_EM_T ?x 0] => destruct (Req_EM_T x 0) as [Ex|]; [|discriminate] end.
    replace (1 + (1 * 1) ^ 2) with 2 in Ex by ring. lra.
Qed.
Print Assumptions C136_momentum_any_k_refuted.

(** An initial projection after a compressible step: the operator still has the diagonal part of that step, and an exact solution of its equation leaves a divergence. *)
Theorem C136_projection_after_step_refuted : exists (solve : solver) (p : parameters) (dx : bool -> R) (o : linop) (l l' : level) (pi : field),
  good dx /\ 1 < gamma p /\ admissible l /\ level_periodic 2 1 l /\ op_periodic 2 1 o /\ periodic 2 1 pi /\
  (forall o rhs q, solve o rhs = Some q -> (forall i j, alpha o i j = -1 /\ sigma o i j = 1 /\ sigc0 o i j = 0 /\ sigc1 o i j = 0) ->
     (forall i j, rhs i j = if Z.even i then -5 else 5) -> forall i j, adotx o dx q i j = rhs i j) /\
  InitialProjection solve p dx o l pi = Some l' /\ exists i j, node_div dx (P_velocity l' true) (P_velocity l' false) i j <> 0.
Proof.
  set (x := fun i (_ : Z) => if Z.even i then 1 else -1 : R).
  exists (fun _ _ => Some x), (mkParameters (7 / 5) 1 0 1 1 1), (fun _ => 1), (mkOp (fun _ _ => 0) (fun _ _ => 0) (fun _ _ => 0) (fun _ _ => -1)),
    (mkLevel (fun _ _ => 1) (fun i _ => if Z.even i then -3 else 2) (fun _ _ => 0) (fun _ _ => 1) (fun _ _ => 1)).
  eexists. exists (fun _ _ => 0). split; [intros b; lra|]. split; [cbn; lra|].
  split; [intros i j; cbn; repeat split; lra || field|]. split.
  { repeat split; cbn [l_density l_momentum0 l_momentum1 l_PTdensity l_PTinverse]; try reflexivity. rewrite Z.even_add; cbn; destruct (Z.even i); reflexivity. }
  split; [repeat split|]. split; [repeat split|]. split; [|split].
  - intros o rhs q Hq Ho Hr i j. inversion Hq. subst q. rewrite Hr. unfold adotx. cbv zeta.
    destruct (Ho i j) as (-> & -> & -> & ->), (Ho (i - 1)%Z j) as (_ & -> & -> & ->), (Ho i (j - 1)%Z) as (_ & -> & -> & ->), (Ho (i - 1)%Z (j - 1)%Z) as (_ & -> & -> & ->).
    unfold x. rewrite Z.even_sub, Z.even_add. cbn. destruct (Z.even i); cbn; field.
  - reflexivity.
  - exists 0%Z, 0%Z. unfold node_div, P_velocity, correct_momentum, getFluxes, rotate_backward, backward_op, KCross, x.
    cbn [l_density l_PTdensity l_momentum0 l_momentum1 l_PTinverse alpha_p f k2 c_p gamma Msq]. destruct (Rlt_dec 0 0); [lra|]. cbn. unfold Rdiv. intros Hc.
    match type of Hc with ?a = 0 => assert (Y : a = -1); [|lra] end. field.
Qed.
Print Assumptions C136_projection_after_step_refuted.

(** The operator for coarser grids with harmonic averages, which has two different weights, does not send constants to zero (two of its weights have the wrong letter). *)
Theorem C136_harmonic_constants_refuted : exists (sx sy : field) (dx : bool -> R) (i j : Z), good dx /\ adotx_ha sx sy dx (fun _ _ => 1) i j <> 0.
Proof.
  exists (fun _ _ => 1), (fun _ _ => 2), (fun _ => 1), 0%Z, 0%Z. split; [intros x; lra|]. unfold adotx_ha. cbv zeta. lra.
Qed.
Print Assumptions C136_harmonic_constants_refuted.

(** Two cells which blow against each other: the projection takes all of the motion which is not uniform. *)
Definition C136_level : level := mkLevel (fun _ _ => 1) (fun i _ => if Z.even i then 3 else -1) (fun _ _ => 0) (fun _ _ => 1) (fun _ _ => 1).
Definition C136_op : linop := mkOp (fun _ _ => 0) (fun _ _ => 0) (fun _ _ => 0) (fun _ _ => 0).
Definition C136_parameters : parameters := mkParameters (7 / 5) 1 0 1 0 1.
Example C136_example : good (fun _ => 1) /\ admissible C136_level /\ level_periodic 2 1 C136_level /\ op_periodic 2 1 C136_op /\ accurate 2 1 (fun _ => 1) 0 pair_solver /\
  exists l', InitialProjection pair_solver C136_parameters (fun _ => 1) C136_op C136_level (fun _ _ => 0) = Some l' /\
    l_momentum0 l' 0%Z 0%Z = 1 /\ l_momentum0 l' 1%Z 0%Z = 1 /\ kinetic2 2 1 l' <= 10.
Proof.
  assert (G : good (fun _ => 1)) by (intros x; lra).
  assert (A : admissible C136_level) by (intros i j; cbn; repeat split; lra || field).
  assert (Pl : level_periodic 2 1 C136_level).
  { repeat split; cbn [C136_level l_density l_momentum0 l_momentum1 l_PTdensity l_PTinverse]; try reflexivity. rewrite Z.even_add; cbn; destruct (Z.even i); reflexivity. }
  assert (Po : op_periodic 2 1 C136_op) by (repeat split).
  split; [exact G|]. split; [exact A|]. split; [exact Pl|]. split; [exact Po|]. split; [exact pair_solver_exact|].
  destruct (InitialProjection pair_solver C136_parameters (fun _ => 1) C136_op C136_level (fun _ _ => 0)) as [l'|] eqn:E.
  - exists l'. split; [reflexivity|].
    destruct (C136_projection 2 1 pair_solver C136_parameters (fun _ => 1) C136_op C136_level (fun _ _ => 0) l') as (K & D & _); try assumption;
      [cbn; lra|exact pair_solver_exact|intros i j; auto|reflexivity|].
    assert (K0 : kinetic2 2 1 C136_level = 10) by (unfold kinetic2, total, C136_level; cbn; field).
    rewrite K0 in K.
    unfold InitialProjection in E. cbv zeta in E.
    set (p' := mkParameters (gamma C136_parameters) (c_p C136_parameters) 0 (k2 C136_parameters) 0 (Msq C136_parameters)) in *.
    destruct (DoEulerBackward pair_solver p' 1 (fun _ => 1) C136_op C136_level (fun _ _ => 0)) as [[[l1 o1] q]|] eqn:E1; [|discriminate]. inversion E; subst l1. clear E.
    destruct (C136_momentum pair_solver p' 1 (fun _ => 1) C136_op C136_level (fun _ _ => 0) l' o1 q G eq_refl A E1 0%Z 0%Z) as (M0 & _).
    destruct (C136_momentum pair_solver p' 1 (fun _ => 1) C136_op C136_level (fun _ _ => 0) l' o1 q G eq_refl A E1 1%Z 0%Z) as (M1 & _).
    destruct (backward_periodic 2 1 pair_solver p' 1 (fun _ => 1) 0 C136_op C136_level (fun _ _ => 0) l' o1 q G pair_solver_exact Pl Po (fun i j => conj eq_refl eq_refl) E1) as (L' & _ & Pq & _).
    destruct (pair_values' q Pq) as (q0 & q1 & _ & _ & Wq). unfold cell_grad in M0, M1. rewrite !Wq in M0, M1. cbn in M0, M1.
    specialize (D 1%Z 0%Z). unfold node_div in D. 
    assert (Pm : forall i j, P_velocity l' true i j = l_momentum0 l' i j).
    { intros i j. unfold P_velocity. destruct (backward_fields pair_solver p' 1 (fun _ => 1) C136_op C136_level (fun _ _ => 0) l' o1 q E1) as (-> & -> & _). cbn. field. }
    assert (Pm1 : forall i j, P_velocity l' false i j = l_momentum1 l' i j).
    { intros i j. unfold P_velocity. destruct (backward_fields pair_solver p' 1 (fun _ => 1) C136_op C136_level (fun _ _ => 0) l' o1 q E1) as (-> & -> & _). cbn. field. }
    destruct L' as (_ & Lm & Lm1 & _). rewrite !Pm, !Pm1 in D. destruct (pair_values' _ Lm) as (u0 & u1 & Eu0 & Eu1 & Wu). destruct (pair_values' _ Lm1) as (v0 & v1 & _ & _ & Wv). rewrite !Wu, !Wv in D. rewrite Eu0, Eu1 in *. cbn in D.
    repeat split; lra.
  - exfalso. unfold InitialProjection in E. cbv zeta in E. destruct (DoEulerBackward _ _ _ _ _ _ _) as [[[l1 o1] q]|] eqn:E1; [discriminate|]. clear E.
    unfold DoEulerBackward in E1. cbv zeta in E1. destruct (pair_solver _ _) as [q|] eqn:Es; [discriminate|]. clear E1.
    unfold pair_solver in Es. unfold backward_op in Es. cbv zeta in Es. cbn [alpha_p] in Es. destruct (Rlt_dec 0 0) as [c|c]; [lra|].
    cbn [setSigmaCross setSigma alpha sigma C136_op C136_parameters C136_level rotate_backward l_PTdensity l_PTinverse c_p f] in Es.
    destruct (Req_EM_T 0 0) as [_|]; [|lra].
    match type of Es with context [Req_EM_T ?x 0] => destruct (Req_EM_T x 0) as [Ex|Nx] end.
    + match type of Es with context [Req_EM_T ?x 0] => destruct (Req_EM_T x 0) as [Ey|]; [|discriminate] end.
      replace (1 + (1 * 0) ^ 2) with 1 in Ey by ring. lra.
    + apply Nx. unfold backward_rhs, compDivergence, Pv_cells, diagfac_nodes, AverageCellToNode, KCross. cbn. field; cbn; lra.
Qed.

(** * C137: the forward Euler step and the complete step *)

(** The explicit equations for momentum and pressure. *)
Theorem C137_forward (p : parameters) (dt : R) (dx : bool -> R) (o : linop) (l : level) (pi : field) (l' : level) (o' : linop) (pi' : field) :
  good dx -> k2 p = 1 -> DoEulerForward p dt dx o l pi = (l', o', pi') -> forall i j,
  l_momentum0 l' i j = l_momentum0 l i j + dt * f p * l_momentum1 l i j - dt * c_p p * l_PTdensity l i j * cell_grad dx pi true i j /\
  l_momentum1 l' i j = l_momentum1 l i j - dt * f p * l_momentum0 l i j - dt * c_p p * l_PTdensity l i j * cell_grad dx pi false i j /\
  l_density l' i j = l_density l i j /\ l_PTdensity l' i j = l_PTdensity l i j /\ l_PTinverse l' i j = l_PTinverse l i j /\
  (alpha_p p <= 0 -> pi' i j = pi i j) /\
  (0 < alpha_p p -> pi' i j = pi i j - dt * (gamma p - 1) / Msq p * node_mean (fun i j => Rpower (l_PTdensity l i j) (gamma p - 2)) i j
     * node_div dx (P_velocity l true) (P_velocity l false) i j).
Proof.
  intros Hdx Hk H i j. destruct (forward_momentum p dt dx o l pi l' o' pi' Hdx Hk H i j) as (M1 & M2 & M3 & M4 & M5 & _).
  destruct (forward_pressure p dt dx o l pi l' o' pi' Hdx H i j) as (Q1 & Q2). repeat split; assumption.
Qed.
Print Assumptions C137_forward.

(** A complete step keeps the totals of mass and of PTdensity, however accurate the linear solver is and whatever splitting method is used. *)
Theorem C137_conserves (n m : nat) (eps : R) (solve : solver) (p : parameters) lowest maximum fabs meth cycle subcycle (dx : bool -> R) (dt : R) (o : linop) (l : level) (pi : field) (l' : level) (pi' : field) (o' : linop) :
  good dx -> accurate n m dx eps solve -> level_periodic n m l -> op_periodic n m o -> periodic n m pi ->
  AdvanceLevel solve p (fun Pv => advect lowest maximum fabs meth cycle subcycle Pv dx) dx dt o l pi = Done l' pi' o' ->
  total n m (l_density l') = total n m (l_density l) /\ total n m (l_PTdensity l') = total n m (l_PTdensity l) /\ level_periodic n m l' /\ op_periodic n m o' /\ periodic n m pi'.
Proof.
  intros Hdx Hs Hl Ho Hp H. apply step_cases in H as (l1 & l2 & o2 & pi2 & l3 & o3 & pi3 & l4 & E1 & E2 & E3 & E4 & E5).
  assert (Adv : forall src dt l l', level_periodic n m src -> level_periodic n m l ->
      advect lowest maximum fabs meth cycle subcycle (RecomputeAdvectiveFluxes src) dx dt l = (l', None) ->
      level_periodic n m l' /\ totals n m l' = totals n m l).
  { intros src dt0 la lb Hsrc Hla E.
    pose proof (advect_invariant (fun k => level_periodic n m k /\ totals n m k = totals n m la) lowest maximum fabs meth cycle subcycle (RecomputeAdvectiveFluxes src) dx) as I.
    specialize (fun A => I A dt0 la (conj Hla eq_refl)). rewrite E in I. cbn [fst] in I. apply I.
    intros dir dt' k [H1 H2]. split; [apply sweep_periodic; [exact H1|apply fluxes_periodic, Hsrc]|]. rewrite sweep_totals; [exact H2|exact H1|apply fluxes_periodic, Hsrc]. }
  destruct (Adv l _ l l1 Hl Hl E1) as [L1 _].
  destruct (backward_periodic n m solve p _ dx eps o l1 pi l2 o2 pi2 Hdx Hs L1 Ho Hp E2) as (L2 & O2 & P2 & _).
  assert (P2' : periodic n m (if Req_EM_T (alpha_p p) 0 then pi2 else pi)) by (destruct (Req_EM_T (alpha_p p) 0); assumption).
  destruct (forward_periodic n m p _ dx o2 l _ l3 o3 pi3 Hdx Hl O2 P2' E3) as (L3 & O3 & P3).
  destruct (Adv l2 _ l3 l4 L2 L3 E4) as [L4 T4].
  destruct (backward_periodic n m solve p _ dx eps o3 l4 pi3 l' o' pi' Hdx Hs L4 O3 P3 E5) as (L5 & O5 & P5 & _).
  destruct (backward_fields _ _ _ _ _ _ _ _ _ _ E5) as (D5 & Q5 & _). destruct (forward_fields _ _ _ _ _ _ _ _ _ E3) as (D3 & Q3 & _).
  unfold totals in T4. rewrite D3, Q3 in T4. apply pair_equal_spec in T4 as [T4 T4d]. apply pair_equal_spec in T4 as [T4 _]. apply pair_equal_spec in T4 as [T4a _].
  rewrite D5, Q5. auto.
Qed.
Print Assumptions C137_conserves.

(** In the incompressible limit every cell keeps its PTdensity over a complete step, up to the time step times the residual of the linear solver:
    the flow does not drift away from the background. *)
Theorem C137_background (n m : nat) (eps : R) (solve : solver) (p : parameters) lowest maximum fabs meth cycle subcycle (dx : bool -> R) (dt : R) (o : linop) (l : level) (pi : field) (l' : level) (pi' : field) (o' : linop) :
  good dx -> k2 p = 1 \/ f p = 0 -> 0 < dt -> 1 < gamma p -> alpha_p p = 0 -> (forall i j, alpha o i j = 0) -> accurate n m dx eps solve ->
  level_periodic n m l -> op_periodic n m o -> periodic n m pi ->
  (forall l1, advect lowest maximum fabs meth cycle subcycle (RecomputeAdvectiveFluxes l) dx (1 / 2 * dt) l = (l1, None) -> admissible l1) ->
  AdvanceLevel solve p (fun Pv => advect lowest maximum fabs meth cycle subcycle Pv dx) dx dt o l pi = Done l' pi' o' ->
  forall i j, Rabs (l_PTdensity l' i j - l_PTdensity l i j) <= dt * eps.
Proof.
  intros Hdx Hk Hdt Hg Hal H0 Hs Hl Ho Hp Hadm H i j. apply step_cases in H as (l1 & l2 & o2 & pi2 & l3 & o3 & pi3 & l4 & E1 & E2 & E3 & E4 & E5).
  cbv beta in E1, E4.
  assert (L1 : level_periodic n m l1).
  { pose proof (advect_invariant (level_periodic n m) lowest maximum fabs meth cycle subcycle (RecomputeAdvectiveFluxes l) dx) as I.
    specialize (fun A => I A (1 / 2 * dt) l Hl). rewrite E1 in I. apply I. intros dir dt' k Hk'. apply sweep_periodic; [exact Hk'|apply fluxes_periodic, Hl]. }
  assert (D : forall a b, Rabs (node_div dx (P_velocity l2 true) (P_velocity l2 false) a b) <= eps).
  { intros a b. pose proof (C136_pressure n m solve p (1 / 2 * dt) dx eps o l1 pi l2 o2 pi2 Hdx Hk ltac:(lra) Hg ltac:(lra) (Hadm l1 E1) Hs L1 Ho Hp (fun _ => H0) E2 a b) as C.
    rewrite Hal in C. unfold Rdiv in C. rewrite !Rmult_0_l, Rplus_0_r in C. exact C. }
  destruct (backward_fields _ _ _ _ _ _ _ _ _ _ E5) as (_ & Q5 & _). destruct (forward_fields _ _ _ _ _ _ _ _ _ E3) as (_ & Q3 & _).
  rewrite Q5, <- Q3. rewrite (advect_PT lowest maximum fabs meth cycle subcycle _ dx dt l3 l4 i j E4).
  set (N := node_div dx (P_velocity l2 true) (P_velocity l2 false)) in *.
  assert (Ediv : (RecomputeAdvectiveFluxes l2 true i j - RecomputeAdvectiveFluxes l2 true (i + 1)%Z j) / dx true
     + (RecomputeAdvectiveFluxes l2 false i j - RecomputeAdvectiveFluxes l2 false i (j + 1)%Z) / dx false
     = - ((N i j + N (i + 1)%Z j + N i (j + 1)%Z + N (i + 1)%Z (j + 1)%Z) / 4)).
  { unfold N. rewrite !(node_div_ext dx (P_velocity l2 true) (P_velocity l2 false) (Pv_cells l2 true) (Pv_cells l2 false)) by apply mean_Pv.
    pose proof (Hdx true). pose proof (Hdx false). unfold RecomputeAdvectiveFluxes, AverageCellToFace, node_div.
    replace (i + 1 - 1)%Z with i by lia. replace (j + 1 - 1)%Z with j by lia. field. split; lra. }
  rewrite Ediv.
  replace (l_PTdensity l3 i j + dt * - ((N i j + N (i + 1)%Z j + N i (j + 1)%Z + N (i + 1)%Z (j + 1)%Z) / 4) - l_PTdensity l3 i j)
    with (- (dt * ((N i j + N (i + 1)%Z j + N i (j + 1)%Z + N (i + 1)%Z (j + 1)%Z) / 4))) by field.
  rewrite Rabs_Ropp, Rabs_mult, (Rabs_right dt) by lra. apply Rmult_le_compat_l; [lra|].
  pose proof (D i j) as A1. pose proof (D (i + 1)%Z j) as A2. pose proof (D i (j + 1)%Z) as A3. pose proof (D (i + 1)%Z (j + 1)%Z) as A4.
  apply Rabs_le. 
  assert (B : forall x, Rabs x <= eps -> - eps <= x <= eps).
  { intros x Hx. pose proof (Rle_abs x) as T1. pose proof (Rle_abs (- x)) as T2. rewrite Rabs_Ropp in T2. lra. }
  apply B in A1, A2, A3, A4. lra.
Qed.
Print Assumptions C137_background.

(** Uniform flow: a complete step turns the velocity by the angle of the trapezoidal rule and changes neither its magnitude nor density nor PTdensity;
    without rotation the flow is exactly preserved, with every splitting method. *)
Theorem C137_uniform (n m : nat) (rho a b P : R) (solve : solver) (p : parameters) lowest maximum fabs meth cycle subcycle (dx : bool -> R) (dt : R) (o : linop) (l : level) (pi : field) (l' : level) (pi' : field) (o' : linop) :
  (0 < n)%nat -> (0 < m)%nat -> 0 < rho -> 0 < P -> good dx -> k2 p = 1 -> 0 < c_p p -> 0 < dt -> 1 < gamma p -> 0 <= alpha_p p -> 0 <= Msq p ->
  accurate n m dx 0 solve -> uniform rho a b P l -> op_periodic n m o -> (alpha_p p = 0 -> forall i j, alpha o i j = 0) -> periodic n m pi ->
  (forall i j, cell_grad dx pi true i j = 0 /\ cell_grad dx pi false i j = 0) ->
  AdvanceLevel solve p (fun Pv => advect lowest maximum fabs meth cycle subcycle Pv dx) dx dt o l pi = Done l' pi' o' ->
  let F := dt / 2 * f p in
  let a' := ((1 - F ^ 2) * a + 2 * F * b) / (1 + F ^ 2) in
  let b' := ((1 - F ^ 2) * b - 2 * F * a) / (1 + F ^ 2) in
  uniform rho a' b' P l' /\ a' ^ 2 + b' ^ 2 = a ^ 2 + b ^ 2 /\ (f p = 0 -> uniform rho a b P l') /\
  (forall i j, cell_grad dx pi' true i j = 0 /\ cell_grad dx pi' false i j = 0) /\
  (0 < alpha_p p -> 0 < Msq p -> forall i j, pi' i j = pi i j).
Proof.
  intros Hn Hm Hr HP Hdx Hk Hc Hdt Hg Hal HM Hs Hu Ho H0 Hp Hf H. cbv zeta.
  apply step_cases in H as (l1 & l2 & o2 & pi2 & l3 & o3 & pi3 & l4 & E1 & E2 & E3 & E4 & E5). cbv beta in E1, E4.
  assert (Hr' : rho <> 0) by lra. assert (HP' : P <> 0) by lra. assert (Hh : 0 < 1 / 2 * dt) by lra.
  pose proof (uniform_advect rho a b P a b lowest maximum fabs meth cycle subcycle dx _ l l l1 Hr' HP' Hu Hu E1) as U1.
  destruct (uniform_backward n m rho a b P solve p _ dx o l1 pi l2 o2 pi2 Hn Hm Hr HP Hdx Hk Hc Hh Hg Hal HM Hs U1 Ho H0 Hp Hf E2) as (U2 & O2 & A2 & P2 & F2 & Q2).
  assert (F2' : flat dx (if Req_EM_T (alpha_p p) 0 then pi2 else pi)) by (destruct (Req_EM_T (alpha_p p) 0); assumption).
  assert (P2' : periodic n m (if Req_EM_T (alpha_p p) 0 then pi2 else pi)) by (destruct (Req_EM_T (alpha_p p) 0); assumption).
  destruct (uniform_forward rho a b P p _ dx o2 l _ l3 o3 pi3 Hdx Hk Hu F2' E3) as (U3 & A3 & Q3).
  destruct (forward_periodic n m p _ dx o2 l _ l3 o3 pi3 Hdx (uniform_periodic n m rho a b P l Hu) O2 P2' E3) as (_ & O3 & P3).
  assert (F3 : flat dx pi3). { intros i j. destruct (F2' i j) as [G1 G2]. unfold cell_grad in *. rewrite !Q3. auto. }
  pose proof (uniform_advect rho _ _ P _ _ lowest maximum fabs meth cycle subcycle dx _ l2 l3 l4 Hr' HP' U2 U3 E4) as U4.
  destruct (uniform_backward n m rho _ _ P solve p _ dx o3 l4 pi3 l' o' pi' Hn Hm Hr HP Hdx Hk Hc Hh Hg Hal HM Hs U4 O3) as (U5 & _ & _ & P5 & F5 & Q5); [|exact P3|exact F3|exact E5|].
  { intros Z0 i j. rewrite A3. apply A2, Z0. }
  replace (1 / 2 * dt * f p) with (dt / 2 * f p) in U5 by field.
  set (F := dt / 2 * f p) in *. pose proof (sq1 F) as Q.
  assert (E : forall x y, x = y -> uniform rho (fst x) (snd x) P l' -> uniform rho (fst y) (snd y) P l') by (intros x y ->; auto).
  assert (U : uniform rho (((1 - F ^ 2) * a + 2 * F * b) / (1 + F ^ 2)) (((1 - F ^ 2) * b - 2 * F * a) / (1 + F ^ 2)) P l').
  { refine (E (_, _) (_, _) _ U5). f_equal; unfold Rdiv; ring. }
  split; [exact U|]. split; [|split; [|split; [exact F5|]]].
  - replace (1 + F ^ 2) with (1 + F * F) in * by ring. field. lra.
  - intros Hf0. refine (E (_, _) (_, _) _ U). assert (Fz : F = 0) by (unfold F; rewrite Hf0; ring). rewrite Fz. f_equal; field.
  - intros B1 B2 i j. rewrite (Q5 B1 B2), Q3. destruct (Req_EM_T (alpha_p p) 0) as [Z0|]; [lra|reflexivity].
Qed.
Print Assumptions C137_uniform.

(** A uniform flow on two cells, with rotation: the step is done, and what the theorems say about it. *)
Definition C137_parameters : parameters := mkParameters (7 / 5) 1 1 1 0 1.
Definition C137_level : level := mkLevel (fun _ _ => 2) (fun _ _ => 1) (fun _ _ => 0) (fun _ _ => 4) (fun _ _ => 1 / 2).
Example C137_example : uniform 2 1 0 4 C137_level /\
  exists l' pi' o', AdvanceLevel pair_solver C137_parameters (fun Pv => advect (-10) 10 [[(0, 0); (1, 0)]]%Z Strang 0 0 Pv (fun _ => 1)) (fun _ => 1) 1 C136_op C137_level (fun _ _ => 0) = Done l' pi' o' /\
    uniform 2 (3 / 5) (- (4 / 5)) 4 l' /\ total 2 1 (l_density l') = 4 /\ forall i j, Rabs (l_PTdensity l' i j - 4) <= 1 * 0.
Proof.
  assert (G : good (fun _ => 1)) by (intros x; lra).
  assert (U : uniform 2 1 0 4 C137_level) by (intros i j; cbn; repeat split; lra).
  assert (Po : op_periodic 2 1 C136_op) by (repeat split).
  assert (Pz : periodic 2 1 (fun _ _ => 0)) by (repeat split).
  assert (Fz : flat (fun _ => 1) (fun _ _ => 0)) by (intros i j; unfold cell_grad; split; field).
  split; [exact U|].
  (* the advection is done as long as the speed is at most one cell *)
  assert (Ad : forall a b a' b' src l dt, uniform 2 a' b' 4 src -> uniform 2 a b 4 l -> 0 < dt <= 1 -> Rabs a' <= 2 -> Rabs b' <= 2 ->
     exists l', advect (-10) 10 [[(0, 0); (1, 0)]]%Z Strang 0 0 (RecomputeAdvectiveFluxes src) (fun _ => 1) dt l = (l', None)).
  { intros a b a' b' src l dt Hs Hl Hdt Ha Hb.
    assert (St : forall (d : bool) k dt', 0 < dt' <= 1 -> uniform 2 a b 4 k -> exists k', split_step (-10) 10 [[(0, 0); (1, 0)]]%Z (RecomputeAdvectiveFluxes src) (fun _ => 1) d dt' k = (k', None) /\ uniform 2 a b 4 k').
    { intros d k dt' Hdt' Hk. exists (sweep (RecomputeAdvectiveFluxes src d) 1 dt' d k). split.
      - unfold split_step. cbv zeta. destruct (Rlt_dec _ dt') as [c|c]; [exfalso|reflexivity].
        destruct (level_dt (-10) 10 k (RecomputeAdvectiveFluxes src d) 1 d [[(0, 0); (1, 0)]]%Z) as (R1 & _ & R3); try lra.
        set (r := stable_dt _ _ _ _ _ _ _) in *. clearbody r. destruct R3 as [-> | (cells & [i j] & _ & _ & Er)]; [lra|].
        unfold advect_velocity, get, shift in Er. destruct (Hk i j) as (_ & _ & _ & Ek & _). rewrite Ek in Er.
        rewrite !(uniform_fluxes 2 a' b' 4 src d _ _ Hs) in Er.
        replace (1 / 2 * (4 * (if d then a' else b') / 2 + 4 * (if d then a' else b') / 2) / 4) with ((if d then a' else b') / 2) in Er by field.
        unfold Rdiv in Er. rewrite Rabs_mult, (Rabs_right (/ 2)) in Er by lra.
        assert (T : Rabs (if d then a' else b') <= 2) by (destruct d; assumption). pose proof (Rabs_pos (if d then a' else b')).
        assert (Rabs (if d then a' else b') * / 2 * r <= 1 * r) by (apply Rmult_le_compat_r; lra). lra.
      - apply (uniform_sweep 2 a b 4 _ (4 * (if d then a' else b') / 2)); [lra|lra| |exact Hk]. intros i j. apply (uniform_fluxes 2 a' b' 4), Hs. }
    unfold advect. change (make_split_directions 2 0 0) with [0; 1]%nat. cbn [map Nat.eqb advance advance2]. unfold strang2, bind.
    destruct (St true l (/ 2 * dt) ltac:(lra) Hl) as (k1 & -> & K1). destruct (St false k1 (/ 2 * dt) ltac:(lra) K1) as (k2 & -> & K2).
    destruct (St false k2 (/ 2 * dt) ltac:(lra) K2) as (k3 & -> & K3). destruct (St true k3 (/ 2 * dt) ltac:(lra) K3) as (k4 & -> & _). exists k4. reflexivity. }
  (* the linear solver does not give up *)
  assert (So : forall a b o l q, uniform 2 a b 4 l -> op_periodic 2 1 o -> (forall i j, alpha o i j = 0) -> periodic 2 1 q ->
     exists l' o' q', DoEulerBackward pair_solver C137_parameters (1 / 2 * 1) (fun _ => 1) o l q = Some (l', o', q')).
  { intros a b o l q Hl Hop Hz Hq. unfold DoEulerBackward. cbv zeta.
    set (r := rotate_backward C137_parameters (1 / 2 * 1) l). set (o' := backward_op C137_parameters (1 / 2 * 1) r o).
    assert (Hrhs : forall i j, backward_rhs C137_parameters (1 / 2 * 1) (fun _ => 1) r q i j = 0).
    { intros i j. unfold backward_rhs. rewrite (diagfac_zero C137_parameters (1 / 2 * 1) r i j eq_refl). rewrite divergence_spec by exact G.
      assert (Ur : exists a' b', uniform 2 a' b' 4 r).
      { eexists. eexists. intros x y. unfold r, rotate_backward. cbv zeta. cbn [l_density l_momentum0 l_momentum1 l_PTdensity l_PTinverse]. unfold KCross.
        destruct (Hl x y) as (-> & -> & -> & -> & ->). auto. }
      destruct Ur as (a' & b' & Ur). unfold node_div. rewrite !(uniform_Pv 2 a' b' 4 r _ _ _ Ur). field. }
    assert (Hal : forall i j, alpha o' i j = 0).
    { intros i j. unfold o'. destruct (op_cross C137_parameters (1 / 2 * 1) r o i j) as (_ & _ & _ & _ & A2). rewrite A2; [apply Hz|cbn; lra]. }
    assert (Hsi : forall i j, 0 < sigma o' i j).
    { intros i j. unfold o'. apply op_positive; [cbn; lra|lra|]. intros x y. unfold r, rotate_backward. cbn [l_density l_PTdensity l_PTinverse].
      destruct (Hl x y) as (-> & _ & _ & -> & ->). repeat split; lra. }
    unfold pair_solver. rewrite !Hrhs, !Hal. destruct (Req_EM_T 0 0); [|lra]. destruct (Req_EM_T (0 + 0) 0); [|lra].
    destruct (Req_EM_T (sigma o' 0%Z 0%Z + sigma o' 1%Z 0%Z) 0) as [Es|]; [|eauto]. pose proof (Hsi 0%Z 0%Z). pose proof (Hsi 1%Z 0%Z). lra. }
  assert (Sq : 1 + (1 / 2 * 1 * 1) ^ 2 = 5 / 4) by field.
  assert (Run : exists l' pi' o', AdvanceLevel pair_solver C137_parameters (fun Pv => advect (-10) 10 [[(0, 0); (1, 0)]]%Z Strang 0 0 Pv (fun _ => 1)) (fun _ => 1) 1 C136_op C137_level (fun _ _ => 0) = Done l' pi' o').
  { unfold AdvanceLevel. cbv zeta.
    destruct (Ad 1 0 1 0 C137_level C137_level (1 / 2 * 1) U U ltac:(lra)) as (l1 & E1); [rewrite Rabs_R1; lra|rewrite Rabs_R0; lra|]. rewrite E1.
    pose proof (uniform_advect 2 1 0 4 1 0 _ _ _ _ _ _ _ _ C137_level C137_level l1 ltac:(lra) ltac:(lra) U U E1) as U1.
    destruct (So 1 0 C136_op l1 (fun _ _ => 0) U1 Po (fun _ _ => eq_refl) Pz) as (l2 & o2 & q2 & E2). rewrite E2.
    destruct (uniform_backward 2 1 2 1 0 4 pair_solver C137_parameters (1 / 2 * 1) (fun _ => 1) C136_op l1 (fun _ _ => 0) l2 o2 q2) as (U2 & O2 & A2 & P2 & F2 & _);
      try assumption; try lia; try lra; try (cbn; lra); try reflexivity; [exact pair_solver_exact|].
    destruct (Req_EM_T (alpha_p C137_parameters) 0) as [_|N]; [|exfalso; apply N; reflexivity].
    destruct (DoEulerForward C137_parameters (1 / 2 * 1) (fun _ => 1) o2 C137_level q2) as [[l3 o3] q3] eqn:E3.
    destruct (uniform_forward 2 1 0 4 C137_parameters (1 / 2 * 1) (fun _ => 1) o2 C137_level q2 l3 o3 q3 G eq_refl U F2 E3) as (U3 & A3 & Q3).
    destruct (forward_periodic 2 1 C137_parameters (1 / 2 * 1) (fun _ => 1) o2 C137_level q2 l3 o3 q3 G (uniform_periodic 2 1 2 1 0 4 _ U) O2 P2 E3) as (_ & O3 & P3).
    cbn [f C137_parameters] in U2. rewrite Sq in U2.
    destruct (Ad _ _ _ _ l2 l3 1 U2 U3 ltac:(lra)) as (l4 & E4); [apply Rabs_le; lra|apply Rabs_le; lra|]. rewrite E4.
    pose proof (uniform_advect 2 _ _ 4 _ _ _ _ _ _ _ _ _ _ l2 l3 l4 ltac:(lra) ltac:(lra) U2 U3 E4) as U4.
    destruct (So _ _ o3 l4 q3 U4 O3) as (l5 & o5 & q5 & E5); [intros i j; rewrite A3; apply A2; reflexivity|exact P3|]. rewrite E5. eauto. }
  destruct Run as (l' & pi' & o' & E). exists l', pi', o'. split; [exact E|].
  destruct (C137_uniform 2 1 2 1 0 4 pair_solver C137_parameters (-10) 10 [[(0, 0); (1, 0)]]%Z Strang 0 0 (fun _ => 1) 1 C136_op C137_level (fun _ _ => 0) l' pi' o') as (V & _);
    try assumption; try lia; try lra; try (cbn; lra); try reflexivity; [exact pair_solver_exact|].
  cbn [f C137_parameters] in V. split; [|split].
  - intros i j. destruct (V i j) as (V1 & V2 & V3 & V4 & V5). rewrite V1, V2, V3, V4, V5. repeat split; field.
  - destruct (C137_conserves 2 1 0 pair_solver C137_parameters (-10) 10 [[(0, 0); (1, 0)]]%Z Strang 0 0 (fun _ => 1) 1 C136_op C137_level (fun _ _ => 0) l' pi' o' G pair_solver_exact (uniform_periodic 2 1 2 1 0 4 _ U) Po Pz E) as (T & _).
    rewrite T. unfold total, C137_level. cbn. ring.
  - intros i j. refine (C137_background 2 1 0 pair_solver C137_parameters (-10) 10 [[(0, 0); (1, 0)]]%Z Strang 0 0 (fun _ => 1) 1 C136_op C137_level (fun _ _ => 0) l' pi' o' G (or_introl eq_refl)
      _ _ eq_refl (fun _ _ => eq_refl) pair_solver_exact (uniform_periodic 2 1 2 1 0 4 _ U) Po Pz _ E i j); [lra|cbn; lra|].
    intros l1 E1. apply (uniform_admissible 2 1 0 4); [lra|lra|].
    exact (uniform_advect 2 1 0 4 1 0 _ _ _ _ _ _ _ _ C137_level C137_level l1 ltac:(lra) ltac:(lra) U U E1).
Qed.
