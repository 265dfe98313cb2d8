(** Proofs about the complete step of the solver for nearly incompressible flow, and an exact solver for a grid of two cells. *)
From Coq Require Import List Reals ZArith Lra Lia Bool.
From Verif Require Import SplitModel LowMachModel LowMachSpec LowMachProofs LowMachProofs2.
Import ListNotations.
Local Open Scope R_scope.

Lemma mean_Pv (l : level) (x : bool) (i j : Z) : P_velocity l x i j = Pv_cells l x i j.
Proof. unfold P_velocity, Pv_cells, Rdiv. destruct x; ring. Qed.

(** * The forward step *)
Lemma forward_momentum (p : parameters) (dt : R) (dx : bool -> R) (o : linop) (l : level) (pi : field) (l' : level) (o' : linop) (pi' : field) :
  good dx -> k2 p = 1 -> DoEulerForward p dt dx o l pi = (l', o', pi') -> forall i j,
  l_momentum0 l' i j = l_momentum0 l i j + dt * f p * l_momentum1 l i j - dt * c_p p * l_PTdensity l i j * cell_grad dx pi true i j /\
  l_momentum1 l' i j = l_momentum1 l i j - dt * f p * l_momentum0 l i j - dt * c_p p * l_PTdensity l i j * cell_grad dx pi false i j /\
  l_density l' i j = l_density l i j /\ l_PTdensity l' i j = l_PTdensity l i j /\ l_PTinverse l' i j = l_PTinverse l i j /\ alpha o' i j = alpha o i j.
Proof.
  intros Hdx Hk H i j. unfold DoEulerForward in H. cbv zeta in H. apply pair_equal_spec in H as [H E3x]; apply pair_equal_spec in H as [E1x E2x]; subst l' o' pi'.
  cbn [l_density l_momentum0 l_momentum1 l_PTdensity l_PTinverse]. rewrite !fluxes_spec by exact Hdx. cbn [setSigma sigma alpha]. unfold KCross. rewrite Hk.
  repeat split; ring.
Qed.

Lemma forward_pressure (p : parameters) (dt : R) (dx : bool -> R) (o : linop) (l : level) (pi : field) (l' : level) (o' : linop) (pi' : field) :
  good dx -> DoEulerForward p dt dx o l pi = (l', o', pi') -> forall i j,
  (alpha_p p <= 0 -> pi' i j = pi i j) /\
  (0 < alpha_p p -> pi' i j = pi i j - dt * (gamma p - 1) / Msq p * node_mean (fun i j => Rpower (l_PTdensity l i j) (gamma p - 2)) i j
     * node_div dx (P_velocity l true) (P_velocity l false) i j).
Proof.
  intros Hdx H i j. unfold DoEulerForward in H. cbv zeta in H. apply pair_equal_spec in H as [H E3x]; apply pair_equal_spec in H as [E1x E2x]; subst l' o' pi'.
  destruct (Rlt_dec 0 (alpha_p p)) as [c|c].
  - split; [lra|]. intros _. rewrite divergence_spec by exact Hdx.
    rewrite (node_div_ext dx (P_velocity l true) (P_velocity l false) (Pv_cells l true) (Pv_cells l false)) by apply mean_Pv.
    unfold AverageCellToNode, node_mean, Rdiv. set (k := / Msq p). clearbody k. field.
  - split; [reflexivity|]. intros; contradiction.
Qed.

Lemma forward_periodic (n m : nat) (p : parameters) (dt : R) (dx : bool -> R) (o : linop) (l : level) (pi : field) (l' : level) (o' : linop) (pi' : field) :
  good dx -> level_periodic n m l -> op_periodic n m o -> periodic n m pi -> DoEulerForward p dt dx o l pi = (l', o', pi') ->
  level_periodic n m l' /\ op_periodic n m o' /\ periodic n m pi'.
Proof.
  intros Hdx Hl (O1 & O2 & O3 & O4) Hp H.
  pose proof (node_div_periodic n m dx _ _ (Pv_periodic n m l true Hl) (Pv_periodic n m l false Hl)) as Hv.
  destruct Hl as (H1 & H2 & H3 & H4 & H5).
  pose proof (grad_periodic n m dx pi true Hp) as G1. pose proof (grad_periodic n m dx pi false Hp) as G2.
  assert (Hd : periodic n m (AverageCellToNode (fun i j => - dt * (gamma p - 1) / Msq p * Rpower (l_PTdensity l i j) (gamma p - 2)))).
  { apply node_average_periodic. intros i j. destruct (H4 i j) as [-> ->]. auto. }
  unfold DoEulerForward in H. cbv zeta in H. apply pair_equal_spec in H as [H E3x]; apply pair_equal_spec in H as [E1x E2x]; subst l' o' pi'. split; [|split].
  - repeat split; cbn [l_density l_momentum0 l_momentum1 l_PTdensity l_PTinverse]; try apply H1; try apply H4; try apply H5;
      unfold KCross; rewrite !fluxes_spec by exact Hdx; cbn [setSigma sigma];
      destruct (H2 i j) as [E1 E2], (H3 i j) as [E3 E4], (G1 i j) as [E5 E6], (G2 i j) as [E7 E8], (H4 i j) as [E9 E10];
      rewrite ?E1, ?E2, ?E3, ?E4, ?E5, ?E6, ?E7, ?E8, ?E9, ?E10; reflexivity.
  - repeat split; cbn [setSigma sigma sigc0 sigc1 alpha]; try apply O2; try apply O3; try apply O4; destruct (H4 i j) as [E9 E10]; rewrite ?E9, ?E10; reflexivity.
  - intros i j. destruct (Rlt_dec 0 (alpha_p p)); [|apply Hp]. rewrite !divergence_spec by exact Hdx.
    destruct (Hd i j) as [-> ->], (Hv i j) as [-> ->], (Hp i j) as [-> ->]. auto.
Qed.

(** * The complete step *)
Lemma step_cases (solve : solver) (p : parameters) adv (dx : bool -> R) (dt : R) (o : linop) (l : level) (pi : field) (l' : level) (pi' : field) (o' : linop) :
  AdvanceLevel solve p adv dx dt o l pi = Done l' pi' o' ->
  exists l1 l2 o2 pi2 l3 o3 pi3 l4,
    adv (RecomputeAdvectiveFluxes l) (1 / 2 * dt) l = (l1, None) /\
    DoEulerBackward solve p (1 / 2 * dt) dx o l1 pi = Some (l2, o2, pi2) /\
    DoEulerForward p (1 / 2 * dt) dx o2 l (if Req_EM_T (alpha_p p) 0 then pi2 else pi) = (l3, o3, pi3) /\
    adv (RecomputeAdvectiveFluxes l2) dt l3 = (l4, None) /\
    DoEulerBackward solve p (1 / 2 * dt) dx o3 l4 pi3 = Some (l', o', pi').
Proof.
  unfold AdvanceLevel. cbv zeta. destruct (adv (RecomputeAdvectiveFluxes l) (1 / 2 * dt) l) as [l1 [e|]] eqn:E1; [discriminate|].
  destruct (DoEulerBackward solve p (1 / 2 * dt) dx o l1 pi) as [[[l2 o2] pi2]|] eqn:E2; [|discriminate].
  destruct (DoEulerForward p (1 / 2 * dt) dx o2 l (if Req_EM_T (alpha_p p) 0 then pi2 else pi)) as [[l3 o3] pi3] eqn:E3.
  destruct (adv (RecomputeAdvectiveFluxes l2) dt l3) as [l4 [e|]] eqn:E4; [discriminate|].
  destruct (DoEulerBackward solve p (1 / 2 * dt) dx o3 l4 pi3) as [[[l5 o5] pi5]|] eqn:E5; [|discriminate].
  intros H. inversion H; subst. exists l1, l2, o2, pi2, l3, o3, pi3, l4. auto.
Qed.

Lemma backward_fields (solve : solver) (p : parameters) (dt : R) (dx : bool -> R) (o : linop) (l : level) (pi_old : field) (l' : level) (o' : linop) (pi : field) :
  DoEulerBackward solve p dt dx o l pi_old = Some (l', o', pi) ->
  l_density l' = l_density l /\ l_PTdensity l' = l_PTdensity l /\ l_PTinverse l' = l_PTinverse l.
Proof. intros H. apply backward_cases in H as (_ & _ & ->). auto. Qed.

Lemma forward_fields (p : parameters) (dt : R) (dx : bool -> R) (o : linop) (l : level) (pi : field) (l' : level) (o' : linop) (pi' : field) :
  DoEulerForward p dt dx o l pi = (l', o', pi') -> l_density l' = l_density l /\ l_PTdensity l' = l_PTdensity l /\ l_PTinverse l' = l_PTinverse l.
Proof. unfold DoEulerForward. cbv zeta. intros H. inversion H. auto. Qed.

Lemma fluxes_periodic (n m : nat) (l : level) : level_periodic n m l -> forall d, periodic n m (RecomputeAdvectiveFluxes l d).
Proof. intros H d. apply faces_periodic, Pv_periodic, H. Qed.

Lemma diagfac_zero (p : parameters) (dt : R) (l : level) (i j : Z) : alpha_p p = 0 -> diagfac_nodes p dt l i j = 0.
Proof. intros H. unfold diagfac_nodes, AverageCellToNode. rewrite H. unfold Rdiv. ring. Qed.

(** * Uniform flow *)
Lemma uniform_sweep (rho a b P : R) (Pv : field) (c dx dt : R) (dir : bool) (l : level) : rho <> 0 -> P <> 0 -> (forall i j, Pv i j = c) ->
  uniform rho a b P l -> uniform rho a b P (sweep Pv dx dt dir l).
Proof.
  intros Hr HP Hc Hu.
  assert (M : mixed (rho / P) (a / rho) (b / rho) l).
  { intros i j. destruct (Hu i j) as (-> & -> & -> & -> & ->). repeat split; field; auto. }
  assert (N : rho / P <> 0) by (unfold Rdiv; apply Rmult_integral_contrapositive_currified; [exact Hr|apply Rinv_neq_0_compat, HP]).
  assert (E : forall i j, l_PTdensity (sweep Pv dx dt dir l) i j = P).
  { intros i j. rewrite sweep_PT. unfold get. rewrite !Hc. destruct (Hu i j) as (_ & _ & _ & -> & _). unfold Rdiv. ring. }
  intros i j. destruct (sweep_mixed Pv dx dt (rho / P) (a / rho) (b / rho) dir l N) with (i := i) (j := j) as (E1 & E2 & E3 & E4); [|exact M|].
  { intros x y. destruct (Hu x y) as (_ & _ & _ & -> & _). exact HP. }
  rewrite E in *. assert (D : l_density (sweep Pv dx dt dir l) i j = rho) by (rewrite E1; field; exact HP).
  rewrite D in *. split; [reflexivity|]. split; [rewrite E2; field; exact Hr|]. split; [rewrite E3; field; exact Hr|]. split; [reflexivity|].
  apply E4, HP.
Qed.

Lemma uniform_Pv (rho a b P : R) (l : level) (x : bool) (i j : Z) : uniform rho a b P l -> Pv_cells l x i j = P * (if x then a else b) / rho.
Proof. intros H. unfold Pv_cells. destruct (H i j) as (-> & E1 & E2 & -> & _). destruct x; rewrite ?E1, ?E2; reflexivity. Qed.

Lemma uniform_fluxes (rho a b P : R) (l : level) (x : bool) (i j : Z) : uniform rho a b P l -> RecomputeAdvectiveFluxes l x i j = P * (if x then a else b) / rho.
Proof.
  intros H. unfold RecomputeAdvectiveFluxes, AverageCellToFace. destruct x; rewrite !(uniform_Pv rho a b P l _ _ _ H); unfold Rdiv; set (k := / rho); clearbody k; field.
Qed.

Lemma uniform_advect (rho a b P a' b' : R) lowest maximum fabs meth cycle subcycle (dx : bool -> R) (dt : R) (src l l' : level) : rho <> 0 -> P <> 0 ->
  uniform rho a' b' P src -> uniform rho a b P l -> advect lowest maximum fabs meth cycle subcycle (RecomputeAdvectiveFluxes src) dx dt l = (l', None) -> uniform rho a b P l'.
Proof.
  intros Hr HP Hs Hl H.
  pose proof (advect_invariant (uniform rho a b P) lowest maximum fabs meth cycle subcycle (RecomputeAdvectiveFluxes src) dx) as I.
  specialize (I (fun dir dt l Hl => uniform_sweep rho a b P (RecomputeAdvectiveFluxes src dir) _ (dx dir) dt dir l Hr HP
     (fun i j => uniform_fluxes rho a' b' P src dir i j Hs) Hl) dt l Hl). rewrite H in I. exact I.
Qed.

Lemma uniform_periodic (n m : nat) (rho a b P : R) (l : level) : uniform rho a b P l -> level_periodic n m l.
Proof.
  intros H. repeat split; destruct (H i j) as (E1 & E2 & E3 & E4 & E5), (H (i + Z.of_nat n)%Z j) as (F1 & F2 & F3 & F4 & F5), (H i (j + Z.of_nat m)%Z) as (G1 & G2 & G3 & G4 & G5); congruence.
Qed.

Lemma uniform_admissible (rho a b P : R) (l : level) : 0 < rho -> 0 < P -> uniform rho a b P l -> admissible l.
Proof. intros Hr HP H i j. destruct (H i j) as (-> & _ & _ & -> & ->). auto. Qed.

Definition flat (dx : bool -> R) (pi : field) : Prop := forall i j, cell_grad dx pi true i j = 0 /\ cell_grad dx pi false i j = 0.

Lemma uniform_backward (n m : nat) (rho a b P : R) (solve : solver) (p : parameters) (dt : R) (dx : bool -> R) (o : linop) (l : level) (pi_old : field) (l' : level) (o' : linop) (pi : field) :
  (0 < n)%nat -> (0 < m)%nat -> 0 < rho -> 0 < P -> good dx -> k2 p = 1 -> 0 < c_p p -> 0 < dt -> 1 < gamma p -> 0 <= alpha_p p -> 0 <= Msq p ->
  accurate n m dx 0 solve -> uniform rho a b P l -> op_periodic n m o -> (alpha_p p = 0 -> forall i j, alpha o i j = 0) -> periodic n m pi_old -> flat dx pi_old ->
  DoEulerBackward solve p dt dx o l pi_old = Some (l', o', pi) ->
  let F := dt * f p in
  uniform rho ((a + F * b) / (1 + F ^ 2)) ((b - F * a) / (1 + F ^ 2)) P l' /\ op_periodic n m o' /\ (alpha_p p = 0 -> forall i j, alpha o' i j = 0) /\
  periodic n m pi /\ flat dx pi /\ (0 < alpha_p p -> 0 < Msq p -> forall i j, pi i j = pi_old i j).
Proof.
  intros Hn Hm Hr HP Hdx Hk Hc Hdt Hg Ha HM Hs Hu Ho Hal Hp Hf H. cbv zeta.
  pose proof (uniform_periodic n m rho a b P l Hu) as Hl.
  destruct (backward_periodic n m solve p dt dx 0 o l pi_old l' o' pi Hdx Hs Hl Ho Hp H) as (L' & O' & Pi & Res).
  pose proof H as H'. apply backward_cases in H' as (Eo & _ & _).
  set (r := rotate_backward p dt l) in *.
  assert (Hur : exists a' b', uniform rho a' b' P r).
  { eexists. eexists. intros i j. unfold r, rotate_backward. cbv zeta. cbn [l_density l_momentum0 l_momentum1 l_PTdensity l_PTinverse]. unfold KCross.
    destruct (Hu i j) as (-> & -> & -> & -> & ->). auto. }
  destruct Hur as (a' & b' & Hur).
  assert (D0 : forall i j, node_div dx (Pv_cells r true) (Pv_cells r false) i j = 0).
  { intros i j. unfold node_div. rewrite !(uniform_Pv rho a' b' P r _ _ _ Hur). unfold Rdiv. ring. }
  assert (Al : forall i j, alpha o' i j = diagfac_nodes p dt r i j).
  { intros i j. rewrite Eo. destruct (op_cross p dt r o i j) as (_ & _ & _ & A1 & A2). destruct (Rlt_dec 0 (alpha_p p)) as [c|c]; [exact (A1 c)|].
    assert (Z0 : alpha_p p = 0) by lra. rewrite (A2 c), (Hal Z0), (diagfac_zero p dt r i j Z0). reflexivity. }
  assert (S1 : forall i j, adotx o' dx pi i j = backward_rhs p dt dx r pi_old i j).
  { intros i j. specialize (Res i j). pose proof (Rabs_pos (adotx o' dx pi i j - backward_rhs p dt dx r pi_old i j)).
    assert (E : Rabs (adotx o' dx pi i j - backward_rhs p dt dx r pi_old i j) = 0) by lra.
    destruct (Req_dec (adotx o' dx pi i j - backward_rhs p dt dx r pi_old i j) 0) as [E'|N]; [lra|]. apply Rabs_no_R0 in N. contradiction. }
  assert (S2 : forall i j, adotx o' dx pi_old i j = backward_rhs p dt dx r pi_old i j).
  { intros i j. rewrite adotx_spec by exact Hdx. unfold backward_rhs. rewrite divergence_spec by exact Hdx. rewrite D0, Al.
    rewrite (node_div_ext dx _ _ (fun _ _ => 0) (fun _ _ => 0));
      [|intros x y; destruct (Hf x y) as [-> ->]; ring|intros x y; destruct (Hf x y) as [-> ->]; ring].
    unfold node_div, Rdiv. ring. }
  rewrite Eo in S1, S2.
  pose proof (backward_solutions n m p dt dx o r _ pi pi_old Hn Hm Hdx (uniform_admissible _ _ _ _ _ Hr HP Hur) (uniform_periodic n m _ _ _ _ _ Hur) Ho Pi Hp
    Hc Hdt Hg Ha HM Hal S1 S2) as U.
  assert (Fl : flat dx pi). { intros i j. destruct (U i j) as (-> & -> & _). apply Hf. }
  split; [|split; [exact O'|split; [|split; [exact Pi|split; [exact Fl|intros A1 A2 i j; apply (U i j); assumption]]]]].
  - intros i j. destruct (Hu i j) as (E1 & E2 & E3 & E4 & E5).
    destruct (backward_momentum solve p dt dx o l pi_old l' o' pi Hdx (or_introl Hk) H i j) as (M1 & M2 & M3 & M4 & M5).
    { rewrite E5. apply Rgt_not_eq, Rdiv_lt_0_compat; assumption. }
    destruct (Fl i j) as [Z1 Z2]. rewrite Z1, E2 in M1. rewrite Z2, E3 in M2. rewrite M3, M4, M5, E1, E4, E5.
    set (F := dt * f p) in *. pose proof (sq1 F) as Q. replace (1 + F ^ 2) with (1 + F * F) in * by ring.
    set (X := l_momentum0 l' i j) in *. set (Y := l_momentum1 l' i j) in *.
    split; [reflexivity|]. split; [|split; [|auto]].
    + apply Rmult_eq_reg_r with (1 + F * F); [|lra]. unfold Rdiv. rewrite Rmult_assoc, Rinv_l by lra. rewrite M2 in M1. lra.
    + apply Rmult_eq_reg_r with (1 + F * F); [|lra]. unfold Rdiv. rewrite Rmult_assoc, Rinv_l by lra. rewrite M1 in M2. lra.
  - intros Z0 i j. rewrite Al. apply diagfac_zero, Z0.
Qed.

Lemma uniform_forward (rho a b P : R) (p : parameters) (dt : R) (dx : bool -> R) (o : linop) (l : level) (pi : field) (l' : level) (o' : linop) (pi' : field) :
  good dx -> k2 p = 1 -> uniform rho a b P l -> flat dx pi -> DoEulerForward p dt dx o l pi = (l', o', pi') ->
  let F := dt * f p in
  uniform rho (a + F * b) (b - F * a) P l' /\ (forall i j, alpha o' i j = alpha o i j) /\ forall i j, pi' i j = pi i j.
Proof.
  intros Hdx Hk Hu Hf H. cbv zeta. split; [|split].
  - intros i j. destruct (forward_momentum p dt dx o l pi l' o' pi' Hdx Hk H i j) as (-> & -> & -> & -> & -> & _).
    destruct (Hu i j) as (-> & -> & -> & -> & ->), (Hf i j) as [-> ->]. repeat split; ring.
  - intros i j. apply (forward_momentum p dt dx o l pi l' o' pi' Hdx Hk H i j).
  - intros i j. destruct (forward_pressure p dt dx o l pi l' o' pi' Hdx H i j) as (E1 & E2). destruct (Rlt_dec 0 (alpha_p p)) as [c|c]; [|apply E1; lra].
    rewrite E2 by exact c. assert (D0 : node_div dx (P_velocity l true) (P_velocity l false) i j = 0); [|rewrite D0; ring].
    unfold node_div. rewrite !mean_Pv, !(uniform_Pv rho a b P l _ _ _ Hu). unfold Rdiv. ring.
Qed.

(** * An exact solver for a grid of two cells *)
(** It solves the equation on the grid of 2 x 1 cells with unit cell size if the operator has no diagonal part and the right hand side has the mean zero; else it gives up. *)
Definition pair_solver : solver := fun o rhs =>
  if Req_EM_T (alpha o 0%Z 0%Z) 0 then if Req_EM_T (alpha o 1%Z 0%Z) 0 then if Req_EM_T (rhs 0%Z 0%Z + rhs 1%Z 0%Z) 0 then
    if Req_EM_T (sigma o 0%Z 0%Z + sigma o 1%Z 0%Z) 0 then None
    else Some (fun i _ => if Z.even i then 0 else rhs 0%Z 0%Z / (sigma o 0%Z 0%Z + sigma o 1%Z 0%Z))
  else None else None else None.

Lemma pair_values (q : field) : periodic 2 1 q -> forall i j, q i j = if Z.even i then q 0%Z 0%Z else q 1%Z 0%Z.
Proof.
  intros H.
  assert (Y : forall i (k : nat), q i (Z.of_nat k) = q i 0%Z /\ q i (- Z.of_nat k)%Z = q i 0%Z).
  { intros i. induction k as [|k [IH1 IH2]]; [auto|]. split.
    - replace (Z.of_nat (S k)) with (Z.of_nat k + Z.of_nat 1)%Z by lia. rewrite (proj2 (H i _)). exact IH1.
    - rewrite <- IH2. replace (- Z.of_nat k)%Z with (- Z.of_nat (S k) + Z.of_nat 1)%Z by lia. rewrite (proj2 (H i _)). reflexivity. }
  assert (X : forall e (k : nat), q (e + 2 * Z.of_nat k)%Z 0%Z = q e 0%Z /\ q (e - 2 * Z.of_nat k)%Z 0%Z = q e 0%Z).
  { intros e. induction k as [|k [IH1 IH2]]; [split; f_equal; lia|]. split.
    - replace (e + 2 * Z.of_nat (S k))%Z with (e + 2 * Z.of_nat k + Z.of_nat 2)%Z by lia. rewrite (proj1 (H _ 0%Z)). exact IH1.
    - rewrite <- IH2. replace (e - 2 * Z.of_nat k)%Z with (e - 2 * Z.of_nat (S k) + Z.of_nat 2)%Z by lia. rewrite (proj1 (H _ 0%Z)). reflexivity. }
  intros i j. transitivity (q i 0%Z).
  { destruct (Z_le_gt_dec 0 j); [rewrite <- (proj1 (Y i (Z.to_nat j)))|rewrite <- (proj2 (Y i (Z.to_nat (- j))))]; f_equal; lia. }
  destruct (Z.even i) eqn:E.
  - apply Z.even_spec in E as [k ->]. destruct (Z_le_gt_dec 0 k); [rewrite <- (proj1 (X 0%Z (Z.to_nat k)))|rewrite <- (proj2 (X 0%Z (Z.to_nat (- k))))]; f_equal; lia.
  - assert (O : Z.odd i = true) by (rewrite <- Z.negb_even, E; reflexivity). apply Z.odd_spec in O as [k ->].
    destruct (Z_le_gt_dec 0 k); [rewrite <- (proj1 (X 1%Z (Z.to_nat k)))|rewrite <- (proj2 (X 1%Z (Z.to_nat (- k))))]; f_equal; lia.
Qed.

Lemma pair_values' (q : field) : periodic 2 1 q -> exists a b, q 0%Z 0%Z = a /\ q 1%Z 0%Z = b /\ forall i j, q i j = if Z.even i then a else b.
Proof. intros H. exists (q 0%Z 0%Z), (q 1%Z 0%Z). split; [reflexivity|]. split; [reflexivity|]. apply pair_values, H. Qed.

Lemma pair_solver_exact : accurate 2 1 (fun _ => 1) 0 pair_solver.
Proof.
  intros o rhs pi (O1 & O2 & O3 & O4) Hr H. unfold pair_solver in H.
  destruct (pair_values' _ O1) as (s0 & s1 & V1 & V1' & W1). destruct (pair_values' _ O2) as (c0 & c1 & V2 & V2' & W2). destruct (pair_values' _ O3) as (d0 & d1 & V3 & V3' & W3).
  destruct (pair_values' _ O4) as (a0 & a1 & V4 & V4' & W4). destruct (pair_values' _ Hr) as (r0 & r1 & V5 & V5' & W5).
  rewrite V1, V1', V4, V4', V5, V5' in H.
  destruct (Req_EM_T a0 0) as [A0|]; [|discriminate]. destruct (Req_EM_T a1 0) as [A1|]; [|discriminate].
  destruct (Req_EM_T (r0 + r1) 0) as [Rz|]; [|discriminate].
  destruct (Req_EM_T (s0 + s1) 0) as [|Sz]; [discriminate|]. inversion H. clear H. split.
  - intros i j. rewrite Z.even_add. cbn. destruct (Z.even i); auto.
  - intros i j. match goal with |- Rabs ?x <= 0 => replace x with 0; [rewrite Rabs_R0; lra|] end.
    unfold adotx. cbv zeta. rewrite !W1, !W2, !W3, !W4, !W5. replace r1 with (- r0) by lra. rewrite A0, A1.
    rewrite !Z.even_sub, !Z.even_add. cbn [Z.even]. destruct (Z.even i); cbn [xorb Bool.eqb]; field; exact Sz.
Qed.
