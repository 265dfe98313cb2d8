(** Lemmas for C39 and C64-C67. *)
From Coq Require Import Reals ZArith List Lra Lia Bool.
From Verif Require Import CutCellModel CutCellSpec.
Import ListNotations.
Local Open Scope R_scope.

Lemma row_loop_map {A B} (fuel w : nat) (pack : list A -> list B) (single : A -> B) l :
  (1 <= w)%nat -> (length l < fuel)%nat -> (forall p, length p = w -> (forall x, In x p -> In x l) -> pack p = map single p) ->
  row_loop fuel w pack single l = Some (map single l).
Proof.
  intros Hw. revert l. induction fuel as [|k IH]; intros l Hl HP; [lia|]. cbn [row_loop].
  destruct (Nat.leb_spec w (length l)); auto.
  rewrite IH.
  - rewrite HP; [|rewrite firstn_length; lia|].
    + rewrite <- map_app, firstn_skipn. reflexivity.
    + intros x Hx. rewrite <- (firstn_skipn w l). apply in_or_app. auto.
  - rewrite skipn_length. lia.
  - intros p Lp Ip. apply HP; auto. intros x Hx. rewrite <- (firstn_skipn w l). apply in_or_app. auto.
Qed.

Lemma run_row_map {A B} (w : nat) (pack : list A -> list B) (single : A -> B) l :
  (1 <= w)%nat -> (forall p, length p = w -> (forall x, In x p -> In x l) -> pack p = map single p) ->
  run_row w pack single l = Some (map single l).
Proof. intros Hw HP. apply row_loop_map; auto. Qed.

Lemma clamp_eq x lo hi : lo <= hi -> vclamp x lo hi = sclamp x lo hi.
Proof. intros H. unfold vclamp, sclamp. cbv zeta. destruct (Rlt_dec x lo), (Rlt_dec hi x), (Rlt_dec hi lo); auto; lra. Qed.
Lemma sclamp_range x : 0 <= sclamp x 0 1 <= 1.
Proof. unfold sclamp. destruct (Rlt_dec x 0), (Rlt_dec 1 x); lra. Qed.
Lemma sclamp_id x : 0 <= x <= 1 -> sclamp x 0 1 = x.
Proof. intros H. unfold sclamp. destruct (Rlt_dec x 0), (Rlt_dec 1 x); lra. Qed.

Lemma fractions_eq b : fractions_lane b = fractions_single b.
Proof.
  destruct b as [[l m] r]. unfold fractions_lane, fractions_single.
  destruct (Rle_dec m 0), (Rlt_dec 0 m); auto; lra.
Qed.
Lemma stable_eq i : stable_lane i = stable_single i.
Proof. unfold stable_lane, stable_single. cbv zeta. rewrite !clamp_eq by lra. reflexivity. Qed.

Lemma fractions_row w l : (1 <= w)%nat -> FillCutCellData_Row w l = Some (map fractions_single l).
Proof. intros H. apply run_row_map; auto. intros p _ _. apply map_ext. apply fractions_eq. Qed.
Lemma stable_row w l : (1 <= w)%nat -> ComputeStableFluxes_Row w l = Some (map stable_single l).
Proof. intros H. apply run_row_map; auto. intros p _ _. apply map_ext. apply stable_eq. Qed.

Ltac minmax := unfold Rmax, Rmin; repeat match goal with
  | |- context [Rle_dec ?a ?b] =>
      lazymatch a with context [Rle_dec _ _] => fail | _ =>
      lazymatch b with context [Rle_dec _ _] => fail | _ => destruct (Rle_dec a b); try lra end end
  end.

(** Fractions. *)
Lemma fractions_partition l m r : 0 <= l -> 0 <= m -> 0 <= r -> let a := fractions_single (l, m, r) in
  0 <= us a /\ 0 <= ssL a /\ 0 <= ssR a /\ 0 <= ds a /\ us a + ssL a + ssR a + ds a = m.
Proof. intros Hl Hm Hr a. unfold a, fractions_single. cbn [us ssL ssR ds]. repeat split; minmax; lra. Qed.

Lemma fractions_rel l m r : 0 < m -> let a := fractions_single (l, m, r) in
  us_rel a * m = us a /\ ssL_rel a * m = ssL a /\ ssR_rel a * m = ssR a /\ ds_rel a * m = ds a.
Proof.
  intros Hm a. unfold a, fractions_single. cbn [us ssL ssR ds us_rel ssL_rel ssR_rel ds_rel].
  destruct (Rlt_dec 0 m); [|lra]. repeat split; field; lra.
Qed.

(** The smaller face of a cell has no doubly shielded part; the part of the larger face which reaches it. *)
Lemma fractions_right l m r : 0 <= l -> 0 <= m -> 0 <= r -> r <= m -> let a := fractions_single (l, m, r) in
  us a + ssL a = r /\ ssR a + ds a = m - r.
Proof. intros Hl Hm Hr H a. unfold a, fractions_single. cbn [us ssL ssR ds]. split; minmax; lra. Qed.
Lemma fractions_left l m r : 0 <= l -> 0 <= m -> 0 <= r -> l <= m -> let a := fractions_single (l, m, r) in
  us a + ssR a = l /\ ssL a + ds a = m - l.
Proof. intros Hl Hm Hr H a. unfold a, fractions_single. cbn [us ssL ssR ds]. split; minmax; lra. Qed.
Lemma fractions_small l m r : m <= l \/ m <= r -> ds (fractions_single (l, m, r)) = 0.
Proof. intros H. unfold fractions_single. cbn [ds]. minmax; lra. Qed.

(** Weighted averages. *)
Lemma convex2 t a b lo hi : 0 <= t <= 1 -> lo <= a <= hi -> lo <= b <= hi -> lo <= t * a + (1 - t) * b <= hi.
Proof.
  intros T A B.
  assert (t * lo <= t * a <= t * hi) by (split; apply Rmult_le_compat_l; lra).
  assert ((1 - t) * lo <= (1 - t) * b <= (1 - t) * hi) by (split; apply Rmult_le_compat_l; lra). lra.
Qed.
Lemma convex3 x y z a b c lo hi : 0 <= x -> 0 <= y -> 0 <= z -> x + y + z = 1 -> lo <= a <= hi -> lo <= b <= hi -> lo <= c <= hi ->
  lo <= x * a + y * b + z * c <= hi.
Proof.
  intros X Y Z S A B C.
  assert (x * lo <= x * a <= x * hi) by (split; apply Rmult_le_compat_l; lra).
  assert (y * lo <= y * b <= y * hi) by (split; apply Rmult_le_compat_l; lra).
  assert (z * lo <= z * c <= z * hi) by (split; apply Rmult_le_compat_l; lra).
  assert (E : forall v, x * v + y * v + z * v = v) by (intros v; replace v with ((x + y + z) * v) at 4 by (rewrite S; ring); ring).
  pose proof (E lo). pose proof (E hi). lra.
Qed.
Lemma sub_convex x y z a b c D : 0 <= x -> 0 <= y -> 0 <= z -> x + y + z <= 1 -> 0 <= D ->
  Rabs a <= D -> Rabs b <= D -> Rabs c <= D -> Rabs (x * a + y * b + z * c) <= D.
Proof.
  intros X Y Z S HD A B C.
  assert (M : forall w v, 0 <= w -> Rabs v <= D -> - (w * D) <= w * v <= w * D).
  { intros w v W V. pose proof (Rle_abs v). pose proof (Rle_abs (- v)) as V2. rewrite Rabs_Ropp in V2. split; [replace (- (w * D)) with (w * - D) by ring|]; apply Rmult_le_compat_l; lra. }
  pose proof (M x a X A). pose proof (M y b Y B). pose proof (M z c Z C).
  assert ((x + y + z) * D <= 1 * D) by (apply Rmult_le_compat_r; lra).
  apply Rabs_le. lra.
Qed.

Lemma stable_shielded i lo hi : lo <= regular i <= hi -> lo <= boundaryL i <= hi -> lo <= boundaryR i <= hi ->
  lo <= shielded_left (stable_single i) <= hi /\ lo <= shielded_right (stable_single i) <= hi.
Proof.
  intros. unfold stable_single. cbn [shielded_left shielded_right]. split; apply convex2; auto; apply sclamp_range.
Qed.
Lemma stable_between i lo hi : 0 <= betaUS i -> 0 <= betaL i -> 0 <= betaR i -> betaUS i + betaL i + betaR i = 1 ->
  lo <= regular i <= hi -> lo <= boundaryL i <= hi -> lo <= boundaryR i <= hi -> lo <= stable (stable_single i) <= hi.
Proof.
  intros. destruct (stable_shielded i lo hi) as [A B]; auto. unfold stable_single in *. cbn [stable shielded_left shielded_right] in *.
  apply convex3; auto.
Qed.

(** ** The update *)
Section line.
Context (g : line).
Hypothesis G : geometry g.

Lemma beta_nonneg j : 0 <= beta g j. Proof. apply (G j). Qed.

(** The total flux through face j and the total of the stabilised flux agree. *)
Definition through (j : Z) : R :=
  us (face_fractions g j) * flux g j + ssL (face_fractions g j) * shielded_left (face_fluxes g j)
  + ssR (face_fractions g j) * shielded_right (face_fluxes g j).

Lemma through_stable j : beta g j * stable (face_fluxes g j) = through j.
Proof.
  pose proof (beta_nonneg j) as B. unfold through.
  destruct (Req_dec (beta g j) 0) as [E | E].
  - pose proof (fractions_partition _ _ _ (beta_nonneg (j - 1)) B (beta_nonneg (j + 1))) as P.
    fold (face_fractions g j) in P. cbv zeta in P. rewrite E in *. destruct P as (P1 & P2 & P3 & P4 & P5).
    replace (us (face_fractions g j)) with 0 by lra. replace (ssL (face_fractions g j)) with 0 by lra.
    replace (ssR (face_fractions g j)) with 0 by lra. ring.
  - destruct (fractions_rel (beta g (j - 1)) (beta g j) (beta g (j + 1)) ltac:(lra)) as (R1 & R2 & R3 & _).
    fold (face_fractions g j) in R1, R2, R3. rewrite <- R1, <- R2, <- R3.
    unfold face_fluxes, stable_single. cbn [stable shielded_left shielded_right regular betaUS betaL betaR]. ring.
Qed.

(** What flows through the embedded boundary of cell j. *)
Definition wall (j : Z) : R :=
  if Rlt_dec (beta g (j + 1)) (beta g j) then ssR (face_fractions g j) * fB g j
  else if Rlt_dec (beta g j) (beta g (j + 1)) then - (ssL (face_fractions g (j + 1)) * fB g j) else 0.

Lemma shielded_right_value j : shielded_right (face_fluxes g j) = (1 / 2 + center g j) * flux g j + (1 - (1 / 2 + center g j)) * fB g j.
Proof.
  destruct (G j) as (_ & _ & C & _). unfold face_fluxes, stable_single. cbn [shielded_right centerR regular boundaryR].
  rewrite sclamp_id by lra. reflexivity.
Qed.
Lemma shielded_left_value j : shielded_left (face_fluxes g (j + 1)) =
  (1 / 2 - center g j) * flux g (j + 1)%Z + (1 - (1 / 2 - center g j)) * fB g j.
Proof.
  destruct (G j) as (_ & _ & C & _). unfold face_fluxes, stable_single. cbn [shielded_left centerL regular boundaryL].
  replace (j + 1 - 1)%Z with j by lia. rewrite sclamp_id by lra. reflexivity.
Qed.

Lemma left_fractions j : beta g (j + 1)%Z <= beta g j ->
  us (face_fractions g j) + ssL (face_fractions g j) = beta g (j + 1)%Z /\ 0 <= ssR (face_fractions g j) <= beta g j - beta g (j + 1)%Z /\
  0 <= us (face_fractions g j) /\ 0 <= ssL (face_fractions g j) /\ ssR (face_fractions g j) + ds (face_fractions g j) = beta g j - beta g (j + 1)%Z.
Proof.
  intros H. destruct (fractions_right _ _ _ (beta_nonneg (j - 1)) (beta_nonneg j) (beta_nonneg (j + 1)) H) as [A B].
  destruct (fractions_partition _ _ _ (beta_nonneg (j - 1)) (beta_nonneg j) (beta_nonneg (j + 1))) as (P1 & P2 & P3 & P4 & P5).
  unfold face_fractions. repeat split; auto; lra.
Qed.
Lemma right_fractions j : beta g j <= beta g (j + 1)%Z ->
  us (face_fractions g (j + 1)) + ssR (face_fractions g (j + 1)) = beta g j /\
  0 <= ssL (face_fractions g (j + 1)) <= beta g (j + 1)%Z - beta g j /\
  0 <= us (face_fractions g (j + 1)) /\ 0 <= ssR (face_fractions g (j + 1)) /\
  ssL (face_fractions g (j + 1)) + ds (face_fractions g (j + 1)) = beta g (j + 1)%Z - beta g j.
Proof.
  intros H. unfold face_fractions. replace (j + 1 - 1)%Z with j by lia.
  destruct (fractions_left _ _ _ (beta_nonneg j) (beta_nonneg (j + 1)) (beta_nonneg (j + 1 + 1)) H) as [A B].
  destruct (fractions_partition _ _ _ (beta_nonneg j) (beta_nonneg (j + 1)) (beta_nonneg (j + 1 + 1))) as (P1 & P2 & P3 & P4 & P5).
  repeat split; auto; lra.
Qed.

Lemma ratio_range a b : 0 <= a -> a <= b -> 0 < b -> 0 <= a / b <= 1.
Proof.
  intros. split; [apply Rmult_le_pos; [lra | apply Rlt_le, Rinv_0_lt_compat; auto]|].
  apply (Rmult_le_reg_r b); auto. unfold Rdiv. rewrite Rmult_assoc, Rinv_l; lra.
Qed.

(** Volume times change of a cell. *)
Lemma step_balance k j : volume g j * (step g k j - value g j) = k * (through j - through (j + 1) - wall j)
  \/ (volume g j = 0 /\ through j = 0 /\ through (j + 1) = 0 /\ wall j = 0).
Proof.
  destruct (G j) as (B1 & B2 & C & A & Geq & Gl & Gr). unfold step, update_single, wall. cbn [c_alpha c_L c_R cell_inputs].
  cbn [v_beta face_values].
  destruct (Rtotal_order (beta g j) (beta g (j + 1)%Z)) as [L | [L | L]].
  - (* right greater *)
    destruct (Gr L) as [Ap Av]. destruct (right_fractions j ltac:(lra)) as (F1 & F2 & F3 & F4 & F5).
    destruct (Req_EM_T (volume g j) 0); [lra|]. destruct (Req_EM_T (beta g j) (beta g (j + 1)%Z)); [lra|].
    destruct (Rlt_dec (beta g (j + 1)%Z) (beta g j)); [lra|]. destruct (Rlt_dec (beta g j) (beta g (j + 1)%Z)); [|lra].
    left. unfold upd_right. cbn [c_R c_L c_fB c_prev c_center cell_inputs v_sL v_sR v_us v_stab v_un v_right face_values].
    assert (Q : 0 <= ssL (face_fractions g (j + 1)) * (1 / 2 - center g j) / volume g j <= 1).
    { apply ratio_range; auto; [apply Rmult_le_pos; lra|].
      apply (Rle_trans _ ((beta g (j + 1)%Z - beta g j) * (1 / 2 - center g j))); [apply Rmult_le_compat_r; lra | lra]. }
    rewrite sclamp_id by exact Q. rewrite <- (through_stable j). unfold through. rewrite shielded_left_value.
    rewrite <- F1. field. lra.
  - (* equal *)
    specialize (Geq L). destruct (Req_EM_T (volume g j) 0) as [Z | Z].
    + right. rewrite Z in Geq. rewrite <- (through_stable j), <- (through_stable (j + 1)).
      destruct (Rlt_dec (beta g (j + 1)%Z) (beta g j)); [lra|]. destruct (Rlt_dec (beta g j) (beta g (j + 1)%Z)); [lra|].
      rewrite <- L, <- Geq. repeat split; auto; ring.
    + destruct (Req_EM_T (beta g j) (beta g (j + 1)%Z)); [|lra].
      destruct (Rlt_dec (beta g (j + 1)%Z) (beta g j)); [lra|]. destruct (Rlt_dec (beta g j) (beta g (j + 1)%Z)); [lra|].
      left. unfold upd_regular. cbn [c_R c_L c_prev cell_inputs v_stab face_values].
      rewrite <- (through_stable j), <- (through_stable (j + 1)). rewrite <- L, Geq. ring.
  - (* left greater *)
    destruct (Gl L) as [Ap Av]. destruct (left_fractions j ltac:(lra)) as (F1 & F2 & F3 & F4 & F5).
    destruct (Req_EM_T (volume g j) 0); [lra|]. destruct (Req_EM_T (beta g j) (beta g (j + 1)%Z)); [lra|].
    destruct (Rlt_dec (beta g (j + 1)%Z) (beta g j)); [|lra].
    left. unfold upd_left. cbn [c_R c_L c_fB c_prev c_center cell_inputs v_sL v_sR v_us v_stab v_un v_left face_values].
    assert (Q : 0 <= ssR (face_fractions g j) * (1 / 2 + center g j) / volume g j <= 1).
    { apply ratio_range; auto; [apply Rmult_le_pos; lra|].
      apply (Rle_trans _ ((beta g j - beta g (j + 1)%Z) * (1 / 2 + center g j))); [apply Rmult_le_compat_r; lra | lra]. }
    rewrite sclamp_id by exact Q. rewrite <- (through_stable (j + 1)). unfold through. rewrite shielded_right_value.
    rewrite <- F1. field. lra.
Qed.

Lemma balance_mul k j : volume g j * (step g k j - value g j) = k * (through j - through (j + 1) - wall j).
Proof. destruct (step_balance k j) as [H | (A & B & C & D)]; auto. rewrite A, B, C, D. ring. Qed.

Lemma conservation k lo n : sum_from lo n (fun j => volume g j * step g k j) =
  sum_from lo n (fun j => volume g j * value g j) + k * (through lo - through (lo + Z.of_nat n) - sum_from lo n wall).
Proof.
  revert lo. induction n as [|n IH]; intros lo.
  - cbn [sum_from]. replace (lo + Z.of_nat 0)%Z with lo by lia. ring.
  - cbn [sum_from]. rewrite IH. replace (lo + 1 + Z.of_nat n)%Z with (lo + Z.of_nat (S n))%Z by lia.
    pose proof (balance_mul k lo). lra.
Qed.

(** The change of a cell is a sum of flux differences whose weights do not exceed one. *)
Lemma no_double j : beta g j <= beta g (j - 1)%Z \/ beta g j <= beta g (j + 1)%Z -> 0 < beta g j ->
  us_rel (face_fractions g j) + ssL_rel (face_fractions g j) + ssR_rel (face_fractions g j) = 1 /\
  0 <= us_rel (face_fractions g j) /\ 0 <= ssL_rel (face_fractions g j) /\ 0 <= ssR_rel (face_fractions g j).
Proof.
  intros H B. unfold face_fractions.
  destruct (fractions_partition _ _ _ (beta_nonneg (j - 1)) (beta_nonneg j) (beta_nonneg (j + 1))) as (P1 & P2 & P3 & P4 & P5).
  destruct (fractions_rel (beta g (j - 1)) (beta g j) (beta g (j + 1)) B) as (R1 & R2 & R3 & R4).
  pose proof (fractions_small (beta g (j - 1)) (beta g j) (beta g (j + 1)) H) as D.
  assert (Q : forall x, 0 <= x * beta g j -> 0 <= x).
  { intros x X. apply (Rmult_le_reg_r (beta g j)); auto. lra. }
  split; [|repeat split; apply Q; lra].
  apply (Rmult_eq_reg_r (beta g j)); [|lra]. lra.
Qed.
Lemma stable_range j lo hi : beta g j <= beta g (j - 1)%Z \/ beta g j <= beta g (j + 1)%Z -> 0 < beta g j ->
  lo <= flux g j <= hi -> lo <= fB g (j - 1)%Z <= hi -> lo <= fB g j <= hi ->
  lo <= stable (face_fluxes g j) <= hi.
Proof.
  intros H B F L R. destruct (no_double j H B) as (S & A1 & A2 & A3). unfold face_fluxes. apply stable_between; auto.
Qed.
Lemma small_cell k j lo hi :
  lo <= flux g j <= hi -> lo <= flux g (j + 1)%Z <= hi ->
  lo <= fB g (j - 1)%Z <= hi -> lo <= fB g j <= hi -> lo <= fB g (j + 1)%Z <= hi ->
  volume g j <> 0 ->
  Rabs (step g k j - value g j) <= Rabs k * (hi - lo).
Proof.
  intros F0 F1 W0 W1 W2 V.
  destruct (G j) as (B1 & B2 & C & A & Geq & Gl & Gr).
  unfold step, update_single. cbn [c_alpha c_L c_R cell_inputs]. cbn [v_beta face_values].
  destruct (Req_EM_T (volume g j) 0); [lra|].
  assert (DD : forall x y, lo <= x <= hi -> lo <= y <= hi -> Rabs (x - y) <= hi - lo).
  { intros x y X Y. apply Rabs_le. lra. }
  assert (KK : forall t e, e = k * t -> Rabs t <= hi - lo -> Rabs e <= Rabs k * (hi - lo)).
  { intros t e -> T. rewrite Rabs_mult. apply Rmult_le_compat_l; [apply Rabs_pos | auto]. }
  assert (J : (j + 1 - 1)%Z = j) by lia.
  destruct (Req_EM_T (beta g j) (beta g (j + 1)%Z)) as [L | N].
  - specialize (Geq L). unfold upd_regular. cbn [c_R c_L c_prev cell_inputs v_stab face_values].
    apply (KK (stable (face_fluxes g j) - stable (face_fluxes g (j + 1)))); [ring|].
    apply DD; apply stable_range; auto; rewrite ?J; auto; try lra.
  - destruct (Rlt_dec (beta g (j + 1)%Z) (beta g j)) as [L | L].
    + destruct (Gl L) as [Ap Av]. destruct (left_fractions j ltac:(lra)) as (E1 & E2 & E3 & E4 & E5).
      unfold upd_left. cbn [c_R c_L c_fB c_prev c_center cell_inputs v_sL v_sR v_us v_stab v_un v_left face_values].
      assert (Q : ssR (face_fractions g j) * (1 / 2 + center g j) <= (beta g j - beta g (j + 1)%Z) * (1 / 2 + center g j))
        by (apply Rmult_le_compat_r; lra).
      assert (Q0 : 0 <= ssR (face_fractions g j) * (1 / 2 + center g j)) by (apply Rmult_le_pos; lra).
      rewrite sclamp_id by (apply ratio_range; auto; lra).
      assert (I : 0 < / volume g j) by (apply Rinv_0_lt_compat; auto).
      assert (P : forall x, 0 <= x -> 0 <= x / volume g j) by (intros x X; apply Rmult_le_pos; lra).
      assert (S : us (face_fractions g j) / volume g j + ssL (face_fractions g j) / volume g j
                  + ssR (face_fractions g j) * (1 / 2 + center g j) / volume g j <= 1).
      { replace (us (face_fractions g j) / volume g j + ssL (face_fractions g j) / volume g j
                  + ssR (face_fractions g j) * (1 / 2 + center g j) / volume g j) with
          ((us (face_fractions g j) + ssL (face_fractions g j) + ssR (face_fractions g j) * (1 / 2 + center g j)) / volume g j)
          by (field; lra).
        apply ratio_range; auto; lra. }
      assert (SH : lo <= shielded_left (face_fluxes g j) <= hi) by (unfold face_fluxes; apply stable_shielded; auto).
      destruct (Req_EM_T (beta g (j + 1)%Z) 0) as [Z | Z].
      * assert (U0 : us (face_fractions g j) = 0) by lra. assert (U1 : ssL (face_fractions g j) = 0) by lra. rewrite U0, U1 in *.
        apply (KK (0 * 0 + 0 * 0 + ssR (face_fractions g j) * (1 / 2 + center g j) / volume g j * (flux g j - fB g j))); [field; lra|].
        pose proof (DD _ _ F0 W1) as D1.
        apply sub_convex; auto; try lra; try (apply P; lra); rewrite ?Rabs_R0; try lra.
      * assert (SR : lo <= stable (face_fluxes g (j + 1)) <= hi).
        { apply stable_range; auto; rewrite ?J; auto; lra. }
        apply (KK (us (face_fractions g j) / volume g j * (flux g j - stable (face_fluxes g (j + 1)))
          + ssL (face_fractions g j) / volume g j * (shielded_left (face_fluxes g j) - stable (face_fluxes g (j + 1)))
          + ssR (face_fractions g j) * (1 / 2 + center g j) / volume g j * (flux g j - fB g j))); [ring|].
        apply sub_convex; auto; try lra; apply P; lra.
    + assert (L' : beta g j < beta g (j + 1)%Z) by lra.
      destruct (Gr L') as [Ap Av]. destruct (right_fractions j ltac:(lra)) as (E1 & E2 & E3 & E4 & E5).
      unfold upd_right. cbn [c_R c_L c_fB c_prev c_center cell_inputs v_sL v_sR v_us v_stab v_un v_right face_values].
      assert (Q : ssL (face_fractions g (j + 1)) * (1 / 2 - center g j) <= (beta g (j + 1)%Z - beta g j) * (1 / 2 - center g j))
        by (apply Rmult_le_compat_r; lra).
      assert (Q0 : 0 <= ssL (face_fractions g (j + 1)) * (1 / 2 - center g j)) by (apply Rmult_le_pos; lra).
      rewrite sclamp_id by (apply ratio_range; auto; lra).
      assert (I : 0 < / volume g j) by (apply Rinv_0_lt_compat; auto).
      assert (P : forall x, 0 <= x -> 0 <= x / volume g j) by (intros x X; apply Rmult_le_pos; lra).
      assert (S : us (face_fractions g (j + 1)) / volume g j + ssR (face_fractions g (j + 1)) / volume g j
                  + ssL (face_fractions g (j + 1)) * (1 / 2 - center g j) / volume g j <= 1).
      { replace (us (face_fractions g (j + 1)) / volume g j + ssR (face_fractions g (j + 1)) / volume g j
                  + ssL (face_fractions g (j + 1)) * (1 / 2 - center g j) / volume g j) with
          ((us (face_fractions g (j + 1)) + ssR (face_fractions g (j + 1)) + ssL (face_fractions g (j + 1)) * (1 / 2 - center g j)) / volume g j)
          by (field; lra).
        apply ratio_range; auto; lra. }
      assert (SH : lo <= shielded_right (face_fluxes g (j + 1)) <= hi)
        by (unfold face_fluxes; apply stable_shielded; cbn [regular boundaryL boundaryR]; rewrite ?J; auto).
      destruct (Req_EM_T (beta g j) 0) as [Z | Z].
      * assert (U0 : us (face_fractions g (j + 1)) = 0) by lra. assert (U1 : ssR (face_fractions g (j + 1)) = 0) by lra. rewrite U0, U1 in *.
        apply (KK (0 * 0 + 0 * 0 + ssL (face_fractions g (j + 1)) * (1 / 2 - center g j) / volume g j * (fB g j - flux g (j + 1)%Z))); [field; lra|].
        pose proof (DD _ _ W1 F1) as D1.
        apply sub_convex; auto; try lra; try (apply P; lra); rewrite ?Rabs_R0; try lra.
      * assert (SR : lo <= stable (face_fluxes g j) <= hi).
        { apply stable_range; auto; lra. }
        apply (KK (us (face_fractions g (j + 1)) / volume g j * (stable (face_fluxes g j) - flux g (j + 1)%Z)
          + ssR (face_fractions g (j + 1)) / volume g j * (stable (face_fluxes g j) - shielded_right (face_fluxes g (j + 1)))
          + ssL (face_fractions g (j + 1)) * (1 / 2 - center g j) / volume g j * (fB g j - flux g (j + 1)%Z))); [ring|].
        apply sub_convex; auto; try lra; apply P; lra.
Qed.
End line.

(** ** Packs against single cells *)
Lemma update_lane k c : c_alpha c > 0 ->
  (let alpha := if Req_EM_T (c_alpha c) 0 then 1 else c_alpha c in
   let u := 0 in
   let u := if Rlt_dec 0 alpha then upd_regular k c else u in
   let u := if Rlt_dec 0 alpha then if Rlt_dec (v_beta (c_R c)) (v_beta (c_L c)) then upd_left vclamp k alpha c else u else u in
   let u := if Rlt_dec 0 alpha then if Rlt_dec (v_beta (c_L c)) (v_beta (c_R c)) then upd_right vclamp k alpha c else u else u in
   u) = update_single k c.
Proof.
  intros A. cbv zeta. unfold update_single. destruct (Req_EM_T (c_alpha c) 0); [lra|]. destruct (Rlt_dec 0 (c_alpha c)); [|lra].
  unfold upd_left, upd_right. cbv zeta. rewrite !clamp_eq by lra.
  destruct (Req_EM_T (v_beta (c_L c)) (v_beta (c_R c))), (Rlt_dec (v_beta (c_R c)) (v_beta (c_L c))),
    (Rlt_dec (v_beta (c_L c)) (v_beta (c_R c))); auto; lra.
Qed.
Lemma update_row w k l : (1 <= w)%nat -> (forall c, In c l -> 0 < c_alpha c) ->
  UpdateConservatively_Row w k l = Some (map (update_single k) l).
Proof.
  intros W A. apply run_row_map; auto. intros p Lp Ip. unfold update_pack.
  destruct p as [|c p]; [cbn in Lp; lia|]. cbn [forallb].
  destruct (Req_EM_T (c_alpha c) 0) as [Z | Z].
  { specialize (A c (Ip c (or_introl eq_refl))). lra. }
  cbn [andb]. apply map_ext_in. intros d Hd. apply update_lane. apply A, Ip, Hd.
Qed.
