(** Proofs about the advection of the solver for nearly incompressible flow. *)
From Coq Require Import List Reals ZArith Lra Lia Bool.
From Verif Require Import SplitModel LowMachModel LowMachSpec.
Import ListNotations.
Local Open Scope R_scope.

(** * Sums over a period *)
Lemma sum1_ext (n : nat) (g h : Z -> R) : (forall i, g i = h i) -> sum1 n g = sum1 n h.
Proof. intros H. induction n as [|k IH]; [reflexivity|]. cbn [sum1]. rewrite IH, H. reflexivity. Qed.

Lemma sum1_lin (n : nat) (a : R) (g h : Z -> R) : sum1 n (fun i => g i + a * h i) = sum1 n g + a * sum1 n h.
Proof. induction n as [|k IH]; cbn [sum1]; [ring|]. rewrite IH. ring. Qed.

Lemma sum1_pred (n : nat) (g : Z -> R) : sum1 n (fun i => g (i - 1)%Z) + g (Z.of_nat n - 1)%Z = g (-1)%Z + sum1 n g.
Proof.
  induction n as [|k IH]; [cbn; ring|]. cbn [sum1].
  replace (Z.of_nat (S k) - 1)%Z with (Z.of_nat k) by lia. lra.
Qed.

Lemma sum1_shift (n : nat) (g : Z -> R) : (forall i, g (i + Z.of_nat n)%Z = g i) -> sum1 n (fun i => g (i - 1)%Z) = sum1 n g.
Proof.
  intros H. pose proof (sum1_pred n g) as E. specialize (H (-1)%Z).
  replace (-1 + Z.of_nat n)%Z with (Z.of_nat n - 1)%Z in H by lia. lra.
Qed.

Lemma sum1_nonneg (n : nat) (g : Z -> R) : (forall i, 0 <= g i) -> 0 <= sum1 n g.
Proof. intros H. induction n as [|k IH]; cbn [sum1]; [lra|]. specialize (H (Z.of_nat k)). lra. Qed.

Lemma sum1_zero (n : nat) (g : Z -> R) : (forall i, 0 <= g i) -> sum1 n g = 0 ->
  forall i, (0 <= i < Z.of_nat n)%Z -> g i = 0.
Proof.
  intros H. induction n as [|k IH]; intros E i Hi; [lia|]. cbn [sum1] in E.
  pose proof (sum1_nonneg k g H). pose proof (H (Z.of_nat k)).
  destruct (Z.eq_dec i (Z.of_nat k)) as [-> | ne]; [lra|]. apply IH; [lra|lia].
Qed.

Lemma total_ext (n m : nat) (g h : field) : (forall i j, g i j = h i j) -> total n m g = total n m h.
Proof. intros H. apply sum1_ext. intros i. apply sum1_ext. intros j. apply H. Qed.

Lemma total_lin (n m : nat) (a : R) (g h : field) : total n m (fun i j => g i j + a * h i j) = total n m g + a * total n m h.
Proof.
  unfold total. rewrite <- sum1_lin. apply sum1_ext. intros i. apply sum1_lin.
Qed.

Lemma total_shift_x (n m : nat) (g : field) : periodic n m g -> total n m (fun i j => g (i - 1)%Z j) = total n m g.
Proof.
  intros H. unfold total. apply (sum1_shift n (fun i => sum1 m (fun j => g i j))).
  intros i. apply sum1_ext. intros j. apply (H i j).
Qed.

Lemma total_shift_y (n m : nat) (g : field) : periodic n m g -> total n m (fun i j => g i (j - 1)%Z) = total n m g.
Proof.
  intros H. unfold total. apply sum1_ext. intros i. apply (sum1_shift m (fun j => g i j)).
  intros j. apply (H i j).
Qed.

Lemma total_nonneg (n m : nat) (g : field) : (forall i j, 0 <= g i j) -> 0 <= total n m g.
Proof. intros H. apply sum1_nonneg. intros i. apply sum1_nonneg. intros j. apply H. Qed.

Lemma total_zero (n m : nat) (g : field) : (forall i j, 0 <= g i j) -> total n m g = 0 ->
  forall i j, (0 <= i < Z.of_nat n)%Z -> (0 <= j < Z.of_nat m)%Z -> g i j = 0.
Proof.
  intros H E i j Hi Hj.
  assert (E1 : sum1 m (fun j => g i j) = 0).
  { apply (sum1_zero n (fun i => sum1 m (fun j => g i j))); [|exact E|exact Hi].
    intros i'. apply sum1_nonneg. intros j'. apply H. }
  apply (sum1_zero m (fun j => g i j)); [intros j'; apply H|exact E1|exact Hj].
Qed.

(** * Periodic arrays *)
Lemma periodic_x (n m : nat) (q : field) (a : Z) (i j : Z) : periodic n m q -> q (i + Z.of_nat n + a)%Z j = q (i + a)%Z j.
Proof. intros H. replace (i + Z.of_nat n + a)%Z with (i + a + Z.of_nat n)%Z by lia. apply H. Qed.
Lemma periodic_x' (n m : nat) (q : field) (a : Z) (i j : Z) : periodic n m q -> q (i + Z.of_nat n - a)%Z j = q (i - a)%Z j.
Proof. intros H. replace (i + Z.of_nat n - a)%Z with (i - a + Z.of_nat n)%Z by lia. apply H. Qed.
Lemma periodic_x0 (n m : nat) (q : field) (i j : Z) : periodic n m q -> q (i + Z.of_nat n)%Z j = q i j.
Proof. intros H. apply H. Qed.
Lemma periodic_y (n m : nat) (q : field) (a : Z) (i j : Z) : periodic n m q -> q i (j + Z.of_nat m + a)%Z = q i (j + a)%Z.
Proof. intros H. replace (j + Z.of_nat m + a)%Z with (j + a + Z.of_nat m)%Z by lia. apply H. Qed.
Lemma periodic_y' (n m : nat) (q : field) (a : Z) (i j : Z) : periodic n m q -> q i (j + Z.of_nat m - a)%Z = q i (j - a)%Z.
Proof. intros H. replace (j + Z.of_nat m - a)%Z with (j - a + Z.of_nat m)%Z by lia. apply H. Qed.
Lemma periodic_y0 (n m : nat) (q : field) (i j : Z) : periodic n m q -> q i (j + Z.of_nat m)%Z = q i j.
Proof. intros H. apply H. Qed.

Ltac per1 H :=
  try rewrite !(periodic_x _ _ _ _ _ _ H); try rewrite !(periodic_x' _ _ _ _ _ _ H); try rewrite !(periodic_x0 _ _ _ _ _ H);
  try rewrite !(periodic_y _ _ _ _ _ _ H); try rewrite !(periodic_y' _ _ _ _ _ _ H); try rewrite !(periodic_y0 _ _ _ _ _ H).

Lemma periodic_shift (n m : nat) (q : field) (a b : Z) : periodic n m q -> periodic n m (fun i j => q (i + a)%Z (j + b)%Z).
Proof. intros H i j. rewrite (periodic_x _ _ _ _ _ _ H), (periodic_y _ _ _ _ _ _ H). auto. Qed.
Lemma periodic_map2 (n m : nat) (g : R -> R -> R) (a b : field) : periodic n m a -> periodic n m b -> periodic n m (fun i j => g (a i j) (b i j)).
Proof. intros Ha Hb i j. destruct (Ha i j) as [-> ->]. destruct (Hb i j) as [-> ->]. auto. Qed.
Lemma periodic_map (n m : nat) (g : R -> R) (a : field) : periodic n m a -> periodic n m (fun i j => g (a i j)).
Proof. intros Ha i j. destruct (Ha i j) as [-> ->]. auto. Qed.

Lemma at_cell_periodic (n m : nat) (l : level) : level_periodic n m l ->
  forall i j a, at_cell l (i + Z.of_nat n + a)%Z j = at_cell l (i + a)%Z j /\ at_cell l i (j + Z.of_nat m + a)%Z = at_cell l i (j + a)%Z /\
    at_cell l (i + Z.of_nat n)%Z j = at_cell l i j /\ at_cell l i (j + Z.of_nat m)%Z = at_cell l i j.
Proof.
  intros (H1 & H2 & H3 & H4 & H5) i j a. unfold at_cell.
  rewrite !(periodic_x n m _ a i j) by assumption. rewrite !(periodic_y n m _ a i j) by assumption.
  rewrite !(periodic_x0 n m _ i j) by assumption. rewrite !(periodic_y0 n m _ i j) by assumption. auto.
Qed.

Lemma flux_periodic (n m : nat) (l : level) (Pv : field) (dt dx : R) (dir : bool) (i j : Z) :
  level_periodic n m l -> periodic n m Pv ->
  flux_at l Pv dt dx dir (i + Z.of_nat n)%Z j = flux_at l Pv dt dx dir i j /\ flux_at l Pv dt dx dir i (j + Z.of_nat m)%Z = flux_at l Pv dt dx dir i j.
Proof.
  intros Hl HP. pose proof (at_cell_periodic n m l Hl) as H. unfold flux_at, shift, get.
  destruct dir; cbn [fst snd].
  - split.
    + rewrite !(proj1 (H i j _)). rewrite !(periodic_x n m Pv _ i j HP). reflexivity.
    + rewrite !(proj2 (proj2 (proj2 (H _ j 0%Z)))). rewrite !(periodic_y0 n m Pv _ j HP). reflexivity.
  - split.
    + rewrite !(proj1 (proj2 (proj2 (H i _ 0%Z)))). rewrite !(periodic_x0 n m Pv i _ HP). reflexivity.
    + rewrite !(proj1 (proj2 (H i j _))). rewrite !(periodic_y n m Pv _ i j HP). reflexivity.
Qed.

Lemma flux_field_periodic (n m : nat) (l : level) (Pv : field) (dt dx : R) (dir : bool) (F : cons -> R) :
  level_periodic n m l -> periodic n m Pv -> periodic n m (fun i j => F (flux_at l Pv dt dx dir i j)).
Proof. intros Hl HP i j. destruct (flux_periodic n m l Pv dt dx dir i j Hl HP) as [-> ->]. auto. Qed.

Lemma sweep_periodic (n m : nat) (l : level) (Pv : field) (dt dx : R) (dir : bool) :
  level_periodic n m l -> periodic n m Pv -> level_periodic n m (sweep Pv dx dt dir l).
Proof.
  intros Hl HP.
  assert (U : forall (q : field) (F : cons -> R), periodic n m q ->
    periodic n m (fun i j => q i j + dt / dx * (F (flux_at l Pv dt dx dir i j) - F (get (flux_at l Pv dt dx dir) (shift dir 1 i j))))).
  { intros q F Hq. pose proof (flux_field_periodic n m l Pv dt dx dir F Hl HP) as HF. intros i j.
    pose proof (HF i j) as [A1 A2]. cbn beta in A1, A2. rewrite A1, A2. destruct (Hq i j) as [-> ->].
    unfold shift, get. destruct dir; cbn [fst snd].
    - pose proof (periodic_x n m _ 1 i j HF) as B1. pose proof (periodic_y0 n m _ (i + 1) j HF) as B2. cbn beta in B1, B2. rewrite B1, B2. auto.
    - pose proof (periodic_x0 n m _ i (j + 1) HF) as B1. pose proof (periodic_y n m _ 1 i j HF) as B2. cbn beta in B1, B2. rewrite B1, B2. auto. }
  destruct Hl as (H1 & H2 & H3 & H4 & H5). unfold sweep, CompleteFromCons. cbv zeta.
  repeat split; cbn [l_density l_momentum0 l_momentum1 l_PTdensity l_PTinverse].
  1-8: now apply U.
  - rewrite (proj1 (U _ f_density H1 i j)), (proj1 (U _ f_PTdensity H4 i j)). reflexivity.
  - rewrite (proj2 (U _ f_density H1 i j)), (proj2 (U _ f_PTdensity H4 i j)). reflexivity.
Qed.

(** The total of an update with the differences of fluxes *)
Lemma total_update (n m : nat) (q g : field) (lambda : R) (dir : bool) : periodic n m g ->
  total n m (fun i j => q i j + lambda * (g i j - get g (shift dir 1 i j))) = total n m q.
Proof.
  intros Hg. unfold shift, get.
  assert (E : total n m (fun i j => g i j - (if dir then g (i + 1)%Z j else g i (j + 1)%Z)) = 0).
  { destruct dir.
    - rewrite (total_ext n m _ (fun i j => g i j + -1 * g (i + 1)%Z j)) by (intros; ring). rewrite total_lin.
      pose proof (total_shift_x n m (fun i j => g (i + 1)%Z j)) as S1. cbn beta in S1.
      rewrite <- S1; [|intros i j; rewrite (periodic_x n m _ 1 i j Hg), (periodic_y0 n m _ (i + 1) j Hg); auto].
      rewrite (total_ext n m (fun i j => g (i - 1 + 1)%Z j) g); [ring|]. intros i j. f_equal. lia.
    - rewrite (total_ext n m _ (fun i j => g i j + -1 * g i (j + 1)%Z)) by (intros; ring). rewrite total_lin.
      pose proof (total_shift_y n m (fun i j => g i (j + 1)%Z)) as S1. cbn beta in S1.
      rewrite <- S1; [|intros i j; rewrite (periodic_x0 n m _ i (j + 1) Hg), (periodic_y n m _ 1 i j Hg); auto].
      rewrite (total_ext n m (fun i j => g i (j - 1 + 1)%Z) g); [ring|]. intros i j. f_equal. lia. }
  rewrite total_lin. rewrite (total_ext n m (fun i j => g i j - _) (fun i j => g i j - (if dir then g (i + 1)%Z j else g i (j + 1)%Z)));
    [rewrite E; ring|]. intros i j. destruct dir; reflexivity.
Qed.

Definition totals (n m : nat) (l : level) : R * R * R * R :=
  (total n m (l_density l), total n m (l_momentum0 l), total n m (l_momentum1 l), total n m (l_PTdensity l)).

Lemma sweep_totals (n m : nat) (l : level) (Pv : field) (dt dx : R) (dir : bool) :
  level_periodic n m l -> periodic n m Pv -> totals n m (sweep Pv dx dt dir l) = totals n m l.
Proof.
  intros Hl HP.
  assert (U : forall (q : field) (F : cons -> R),
    total n m (fun i j => q i j + dt / dx * (F (flux_at l Pv dt dx dir i j) - F (get (flux_at l Pv dt dx dir) (shift dir 1 i j)))) = total n m q).
  { intros q F. pose proof (total_update n m q (fun i j => F (flux_at l Pv dt dx dir i j)) (dt / dx) dir (flux_field_periodic n m l Pv dt dx dir F Hl HP)) as E.
    exact E. }
  unfold totals, sweep, CompleteFromCons. cbv zeta. cbn [l_density l_momentum0 l_momentum1 l_PTdensity].
  rewrite !U. reflexivity.
Qed.

(** * The split methods *)
Lemma directions (cycle subcycle : nat) : exists d : bool,
  map (fun d => Nat.eqb d 0) (make_split_directions 2 cycle subcycle) = [d; negb d].
Proof.
  unfold make_split_directions. pose proof (Nat.mod_upper_bound (cycle mod 2 + subcycle) 2 ltac:(lia)) as H.
  destruct ((cycle mod 2 + subcycle) mod 2)%nat as [|[|k]]; [exists true|exists false|lia]; reflexivity.
Qed.

Lemma advect_two (lowest maximum : R) fabs m cycle subcycle Pv dx dt : exists d : bool,
  forall l, advect lowest maximum fabs m cycle subcycle Pv dx dt l =
  advance2 m dt (split_step lowest maximum fabs Pv dx d) (split_step lowest maximum fabs Pv dx (negb d)) l.
Proof.
  destruct (directions cycle subcycle) as [d Hd]. exists d. intros l. unfold advect.
  assert (E : map (fun d => split_step lowest maximum fabs Pv dx (Nat.eqb d 0)) (make_split_directions 2 cycle subcycle)
            = map (split_step lowest maximum fabs Pv dx) (map (fun d => Nat.eqb d 0) (make_split_directions 2 cycle subcycle))) by (rewrite map_map; reflexivity).
  rewrite E, Hd. reflexivity.
Qed.

Lemma bind_invariant {W : Type} (I : W -> Prop) (a b : W -> W * Result) :
  (forall w, I w -> I (fst (a w))) -> (forall w, I w -> I (fst (b w))) -> forall w, I w -> I (fst (bind a b w)).
Proof.
  intros Ha Hb w Hw. unfold bind. specialize (Ha w Hw). destruct (a w) as [w' [e|]]; cbn [fst] in *; [exact Ha|]. apply Hb, Ha.
Qed.

Lemma advance2_invariant {W : Type} (I : W -> Prop) (m : method) (a b : op W) :
  (forall dt w, I w -> I (fst (a dt w))) -> (forall dt w, I w -> I (fst (b dt w))) -> forall dt w, I w -> I (fst (advance2 m dt a b w)).
Proof.
  intros Ha Hb dt. induction m as [| | |m IH]; cbn [advance2]; [..|exact IH];
    unfold godunov2, strang2, lumped2; repeat (apply bind_invariant; auto).
Qed.

Lemma bind_success {W : Type} (a b : W -> W * Result) (w w' : W) : bind a b w = (w', None) -> exists w1, a w = (w1, None) /\ b w1 = (w', None).
Proof. unfold bind. destruct (a w) as [w1 [e|]]; intros H; [discriminate|]. exists w1. auto. Qed.

(** A quantity to which two operators add multiples of the time step *)
Lemma advance2_adds {W : Type} (q : W -> R) (da db : R) (m : method) (a b : op W) :
  (forall dt w w', a dt w = (w', None) -> q w' = q w + dt * da) -> (forall dt w w', b dt w = (w', None) -> q w' = q w + dt * db) ->
  forall dt w w', advance2 m dt a b w = (w', None) -> q w' = q w + dt * (da + db).
Proof.
  intros Ha Hb dt w w'. induction m as [| | |m IH]; cbn [advance2]; [..|exact IH]; unfold godunov2, strang2, lumped2; intros H.
  - apply bind_success in H as (w1 & H1 & H2). apply Ha in H1. apply Hb in H2. rewrite H2, H1. ring.
  - apply bind_success in H as (w1 & H1 & H). apply bind_success in H as (w2 & H2 & H). apply bind_success in H as (w3 & H3 & H4).
    apply Ha in H1. apply Hb in H2. apply Hb in H3. apply Ha in H4. rewrite H4, H3, H2, H1. field.
  - apply bind_success in H as (w1 & H1 & H). apply bind_success in H as (w2 & H2 & H3).
    apply Ha in H1. apply Hb in H2. apply Ha in H3. rewrite H3, H2, H1. field.
Qed.

Lemma split_step_invariant (I : level -> Prop) lowest maximum fabs (Pv : bool -> field) (dx : bool -> R) (dir : bool) :
  (forall dt l, I l -> I (sweep (Pv dir) (dx dir) dt dir l)) -> forall dt l, I l -> I (fst (split_step lowest maximum fabs Pv dx dir dt l)).
Proof. intros H dt l Hl. unfold split_step. destruct (Rlt_dec _ _); cbn [fst]; auto. Qed.

Lemma advect_invariant (I : level -> Prop) lowest maximum fabs m cycle subcycle (Pv : bool -> field) (dx : bool -> R) :
  (forall dir dt l, I l -> I (sweep (Pv dir) (dx dir) dt dir l)) -> forall dt l, I l -> I (fst (advect lowest maximum fabs m cycle subcycle Pv dx dt l)).
Proof.
  intros H dt l Hl. destruct (advect_two lowest maximum fabs m cycle subcycle Pv dx dt) as [d E]. rewrite E.
  apply advance2_invariant; [| |exact Hl]; intros dt' l' Hl'; apply split_step_invariant; auto.
Qed.

Lemma sweep_PT (Pv : field) (dx dt : R) (dir : bool) (l : level) (i j : Z) :
  l_PTdensity (sweep Pv dx dt dir l) i j = l_PTdensity l i j + dt * ((Pv i j - get Pv (shift dir 1 i j)) / dx).
Proof.
  unfold sweep, CompleteFromCons, flux_at, ComputeNumericFlux, shift, get. destruct dir; cbn [l_PTdensity f_PTdensity fst snd];
    rewrite !Z.add_0_r; unfold Rdiv; ring.
Qed.

Lemma advect_PT lowest maximum fabs m cycle subcycle (Pv : bool -> field) (dx : bool -> R) (dt : R) (l l' : level) (i j : Z) :
  advect lowest maximum fabs m cycle subcycle Pv dx dt l = (l', None) ->
  l_PTdensity l' i j = l_PTdensity l i j + dt * ((Pv true i j - Pv true (i + 1)%Z j) / dx true + (Pv false i j - Pv false i (j + 1)%Z) / dx false).
Proof.
  destruct (advect_two lowest maximum fabs m cycle subcycle Pv dx dt) as [d E]. rewrite E. intros H.
  assert (S1 : forall (dir : bool) dt w w', split_step lowest maximum fabs Pv dx dir dt w = (w', None) ->
    l_PTdensity w' i j = l_PTdensity w i j + dt * ((Pv dir i j - get (Pv dir) (shift dir 1 i j)) / dx dir)).
  { intros dir dt0 w w' Hs. unfold split_step in Hs. destruct (Rlt_dec _ _); inversion Hs. apply sweep_PT. }
  pose proof (advance2_adds (fun w => l_PTdensity w i j) _ _ m _ _ (S1 d) (S1 (negb d)) dt l l' H) as E1. cbn beta in E1.
  rewrite E1. unfold shift, get. destruct d; cbn [negb fst snd]; ring.
Qed.

(** * The flux *)
Lemma upwind_cases (a : R) : (0 < a /\ upwind_sign a = 1) \/ (a < 0 /\ upwind_sign a = -1) \/ (a = 0 /\ upwind_sign a = 0).
Proof.
  unfold upwind_sign. destruct (Rlt_dec 0 a); [auto|]. destruct (Rlt_dec a 0); [auto|]. right; right. split; [lra|reflexivity].
Qed.

Lemma flux_mixed (q0 q1 q2 q3 : cell) (Pv1 Pv2 Pv3 dt dx c u v : R) :
  (forall q, In q [q0; q1; q2; q3] -> PTinverse q = c /\ momentum0 q / density q = u /\ momentum1 q / density q = v) ->
  ComputeNumericFlux q0 q1 q2 q3 Pv1 Pv2 Pv3 dt dx = mkCons (c * Pv2) (c * u * Pv2) (c * v * Pv2) Pv2.
Proof.
  intros H. pose proof (H q0 ltac:(cbn; auto)) as (A0 & B0 & C0). pose proof (H q1 ltac:(cbn; auto)) as (A1 & B1 & C1).
  pose proof (H q2 ltac:(cbn; auto)) as (A2 & B2 & C2). pose proof (H q3 ltac:(cbn; auto)) as (A3 & B3 & C3).
  unfold ComputeNumericFlux, LimitSlopes. cbv zeta. rewrite A0, A1, A2, A3, B0, B1, B2, B3, C0, C1, C2, C3.
  assert (E : forall x k, x + 1 / 2 * dx * (1 / 2 * (x - x + (x - x)) / dx) * k = x) by (intros; unfold Rdiv; ring).
  assert (E' : forall x k, x - 1 / 2 * dx * (1 / 2 * (x - x + (x - x)) / dx) * k = x) by (intros; unfold Rdiv; ring).
  rewrite !E, !E'. f_equal; field.
Qed.

Lemma sweep_mixed (Pv : field) (dx dt c u v : R) (dir : bool) (l : level) : c <> 0 -> (forall i j, l_PTdensity l i j <> 0) ->
  mixed c u v l ->
  forall i j, let l' := sweep Pv dx dt dir l in
    l_density l' i j = c * l_PTdensity l' i j /\ l_momentum0 l' i j = u * l_density l' i j /\ l_momentum1 l' i j = v * l_density l' i j /\
    (l_PTdensity l' i j <> 0 -> l_PTinverse l' i j = c).
Proof.
  intros Hc HP Hm i j. cbv zeta.
  assert (Q : forall a b, PTinverse (at_cell l a b) = c /\ momentum0 (at_cell l a b) / density (at_cell l a b) = u /\
                     momentum1 (at_cell l a b) / density (at_cell l a b) = v).
  { intros a b. destruct (Hm a b) as (E1 & E2 & E3 & E4). cbn. rewrite E1, E3, E4. 
    assert (N : l_density l a b <> 0) by (rewrite E2; apply Rmult_integral_contrapositive_currified; auto).
    repeat split; field; exact N. }
  assert (F : forall a b, flux_at l Pv dt dx dir a b = mkCons (c * Pv a b) (c * u * Pv a b) (c * v * Pv a b) (Pv a b)).
  { intros a b. unfold flux_at. rewrite (flux_mixed _ _ _ _ _ _ _ _ _ c u v).
    - unfold get, shift. destruct dir; cbn [fst snd]; rewrite Z.add_0_r; reflexivity.
    - intros q Hq. cbn in Hq. destruct Hq as [<- | [<- | [<- | [<- | []]]]]; apply Q. }
  destruct (Hm i j) as (E1 & E2 & E3 & E4).
  assert (D : l_density (sweep Pv dx dt dir l) i j = c * l_PTdensity (sweep Pv dx dt dir l) i j).
  { unfold sweep, CompleteFromCons. cbn [l_density l_PTdensity]. unfold get. rewrite !F. cbn [f_density f_PTdensity]. rewrite E2. ring. }
  split; [exact D|]. split; [|split].
  - unfold sweep, CompleteFromCons. cbn [l_density l_momentum0]. unfold get. rewrite !F. cbn [f_density f_momentum0]. rewrite E3. ring.
  - unfold sweep, CompleteFromCons. cbn [l_density l_momentum1]. unfold get. rewrite !F. cbn [f_density f_momentum1]. rewrite E4. ring.
  - intros N. change (l_PTinverse (sweep Pv dx dt dir l) i j) with (l_density (sweep Pv dx dt dir l) i j / l_PTdensity (sweep Pv dx dt dir l) i j).
    rewrite D. field. exact N.
Qed.

(** * The stable time step *)
Lemma fold_max_ge {A : Type} (g : A -> R) (l : list A) : forall s, s <= fold_left (fun s c => Rmax s (g c)) l s /\
  (forall c, In c l -> g c <= fold_left (fun s c => Rmax s (g c)) l s) /\
  (fold_left (fun s c => Rmax s (g c)) l s = s \/ exists c, In c l /\ fold_left (fun s c => Rmax s (g c)) l s = g c).
Proof.
  induction l as [|x l IH]; intros s; cbn [fold_left].
  - split; [lra|]. split; [intros c []|auto].
  - destruct (IH (Rmax s (g x))) as (H1 & H2 & H3). pose proof (Rmax_l s (g x)). pose proof (Rmax_r s (g x)).
    split; [lra|]. split.
    + intros c [-> | Hc]; [lra|auto].
    + destruct H3 as [-> | (c & Hc & ->)]; [|right; exists c; cbn; auto].
      unfold Rmax. destruct (Rle_dec s (g x)); [right; exists x; cbn; auto|auto].
Qed.

Lemma fold_min_le {A : Type} (g : A -> R) (l : list A) : forall s, fold_left (fun s c => Rmin (g c) s) l s <= s /\
  (forall c, In c l -> fold_left (fun s c => Rmin (g c) s) l s <= g c) /\
  (fold_left (fun s c => Rmin (g c) s) l s = s \/ exists c, In c l /\ fold_left (fun s c => Rmin (g c) s) l s = g c).
Proof.
  induction l as [|x l IH]; intros s; cbn [fold_left].
  - split; [lra|]. split; [intros c []|auto].
  - destruct (IH (Rmin (g x) s)) as (H1 & H2 & H3). pose proof (Rmin_l (g x) s). pose proof (Rmin_r (g x) s).
    split; [lra|]. split.
    + intros c [-> | Hc]; [lra|auto].
    + destruct H3 as [-> | (c & Hc & ->)]; [|right; exists c; cbn; auto].
      unfold Rmin. destruct (Rle_dec (g x) s); [right; exists x; cbn; auto|auto].
Qed.

Lemma fab_dt (lowest maximum : R) (l : level) (Pv : field) (dx : R) (dir : bool) (cells : list (Z * Z)) :
  lowest <= 0 -> 0 < dx -> 0 < maximum ->
  let r := stable_dt_fab lowest maximum l Pv dx dir cells in
  0 < r /\ (forall c, In c cells -> Rabs (advect_velocity l Pv dir c) * r <= dx) /\
  (r = maximum \/ exists c, In c cells /\ Rabs (advect_velocity l Pv dir c) * r = dx).
Proof.
  intros Hlow Hdx Hmax. cbv zeta. unfold stable_dt_fab.
  destruct (fold_max_ge (fun c => Rabs (advect_velocity l Pv dir c)) cells lowest) as (H1 & H2 & H3).
  cbv zeta. set (s := fold_left _ cells lowest) in *. clearbody s.
  destruct (Rlt_dec 0 s) as [p|np].
  - split; [apply Rdiv_lt_0_compat; lra|]. split.
    + intros c Hc. specialize (H2 c Hc). apply Rle_trans with (s * (dx / s)); [|right; field; lra].
      apply Rmult_le_compat_r; [|exact H2]. apply Rlt_le, Rdiv_lt_0_compat; lra.
    + destruct H3 as [E | (c & Hc & E)]; [lra|]. right. exists c. split; [exact Hc|]. rewrite <- E. field. lra.
  - split; [exact Hmax|]. split; [|auto]. intros c Hc. specialize (H2 c Hc). pose proof (Rabs_pos (advect_velocity l Pv dir c)).
    replace (Rabs (advect_velocity l Pv dir c)) with 0 by lra. lra.
Qed.

Lemma level_dt (lowest maximum : R) (l : level) (Pv : field) (dx : R) (dir : bool) (fabs : list (list (Z * Z))) :
  lowest <= 0 -> 0 < dx -> 0 < maximum ->
  let r := stable_dt lowest maximum l Pv dx dir fabs in
  0 < r <= maximum /\ (forall cells c, In cells fabs -> In c cells -> Rabs (advect_velocity l Pv dir c) * r <= dx) /\
  (r = maximum \/ exists cells c, In cells fabs /\ In c cells /\ Rabs (advect_velocity l Pv dir c) * r = dx).
Proof.
  intros Hlow Hdx Hmax. cbv zeta. unfold stable_dt.
  destruct (fold_min_le (stable_dt_fab lowest maximum l Pv dx dir) fabs maximum) as (H1 & H2 & H3).
  set (r := fold_left _ fabs maximum) in *. clearbody r.
  assert (Hr : 0 < r). { destruct H3 as [-> | (cells & _ & ->)]; [lra|]. apply fab_dt; assumption. }
  split; [lra|]. split.
  - intros cells c Hcs Hc. destruct (fab_dt lowest maximum l Pv dx dir cells Hlow Hdx Hmax) as (_ & G & _).
    apply Rle_trans with (2 := G c Hc). apply Rmult_le_compat_l; [apply Rabs_pos|]. apply H2, Hcs.
  - destruct H3 as [-> | (cells & Hcs & E)]; [auto|].
    destruct (fab_dt lowest maximum l Pv dx dir cells Hlow Hdx Hmax) as (_ & _ & [G | (c & Hc & G)]).
    + left. congruence.
    + right. exists cells, c. rewrite E. auto.
Qed.

(** * Threads *)
Lemma threads_sequential (local : nat -> R) (order : list nat) : forall s : R * (nat -> R),
  fst (fold_left (fun s a => run_access local a s) (one_after_the_other order) s) = fold_left (fun s k => Rmin (local k) s) order (fst s).
Proof.
  induction order as [|k order IH]; intros s; [reflexivity|]. cbn [one_after_the_other fold_left]. rewrite IH.
  cbn [run_access fst snd]. rewrite Nat.eqb_refl. reflexivity.
Qed.
