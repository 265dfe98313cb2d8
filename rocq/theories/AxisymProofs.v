(** Lemmas for C96. *)
From Coq Require Import List Reals Bool Lra Lia.
From Verif Require Import AxisymModel.
Local Open Scope R_scope.

(** the polynomial of the classical Runge-Kutta method *)
Definition P4 (z : R) : R := 1 + z + z * z / 2 + z * z * z / 6 + z * z * z * z / 24.
Lemma P4_pos : forall z, 0 < P4 z.
Proof.
  intro z. unfold P4.
  replace (1 + z + z * z / 2 + z * z * z / 6 + z * z * z * z / 24) with
    ((Rsqr (z * z + 2 * z) + 8 * Rsqr (z + 3 / 2) + 6) / 24) by (unfold Rsqr; field).
  generalize (Rle_0_sqr (z * z + 2 * z)) (Rle_0_sqr (z + 3 / 2)). lra.
Qed.

(** state with density b and velocities u (radial), v (axial) *)
Definition on (u v b : R) (U : axi) : Prop := a_rho U = b /\ a_mr U = u * b /\ a_ma U = v * b.
Lemma rhs_on : forall P r u v b U, r <> 0 -> b <> 0 -> on u v b U -> on u v (- (u / r) * b) (rhs P r U).
Proof.
  intros P r u v b U Hr Hb [E1 [E2 E3]]. unfold on, rhs. cbn [a_rho a_mr a_ma]. rewrite E1, E2, E3. repeat split; field; split; assumption.
Qed.
Lemma axpy_on : forall u v h b k Y K, on u v b Y -> on u v k K -> on u v (b + h * k) (axpy h K Y).
Proof.
  intros u v h b k Y K [E1 [E2 E3]] [F1 [F2 F3]]. unfold on, axpy. cbn [a_rho a_mr a_ma]. rewrite E1, E2, E3, F1, F2, F3. repeat split; ring.
Qed.

Section Step.
Variables (P : axi -> R) (r u v h b : R) (Y : axi).
Hypothesis Hr : 0 < r.
Hypothesis Hb : 0 < b.
Hypothesis HY : on u v b Y.
Let z := - (h * (u / r)).
Hypothesis Hz : -1 <= z <= 0.

Lemma stage_pos : 0 < 1 + z / 2 /\ 0 < 1 + z / 2 + z * z / 4 /\ 0 < 1 + z + z * z / 2 + z * z * z / 4.
Proof.
  assert (0 <= z * z) by (generalize (Rle_0_sqr z); unfold Rsqr; lra).
  split; [lra|]. split; [lra|].
  destruct (Req_dec z 0) as [E|N].
  - rewrite E. lra.
  - assert (Q : 0 < z * z) by (generalize (Rsqr_pos_lt z N); unfold Rsqr; lra).
    assert (0 < z * z * (1 / 2 + z / 4)) by (apply Rmult_lt_0_compat; lra). lra.
Qed.

Lemma rk4_on : on u v (b * P4 z) (rk4 (rhs P r) h Y).
Proof.
  destruct stage_pos as [S2 [S3 S4]]. unfold rk4.
  assert (R0 : r <> 0) by lra.
  set (k1 := rhs P r Y).
  assert (K1 : on u v (- (u / r) * b) k1) by (apply rhs_on; [exact R0 | lra | exact HY]).
  set (y2 := axpy (h / 2) k1 Y).
  assert (Y2 : on u v (b * (1 + z / 2)) y2).
  { replace (b * (1 + z / 2)) with (b + h / 2 * (- (u / r) * b)) by (unfold z; field; exact R0). apply axpy_on; assumption. }
  set (k2 := rhs P r y2).
  assert (K2 : on u v (- (u / r) * (b * (1 + z / 2))) k2).
  { apply rhs_on; [exact R0 | apply Rgt_not_eq; apply Rmult_lt_0_compat; assumption | exact Y2]. }
  set (y3 := axpy (h / 2) k2 Y).
  assert (Y3 : on u v (b * (1 + z / 2 + z * z / 4)) y3).
  { replace (b * (1 + z / 2 + z * z / 4)) with (b + h / 2 * (- (u / r) * (b * (1 + z / 2)))) by (unfold z; field; exact R0). apply axpy_on; assumption. }
  set (k3 := rhs P r y3).
  assert (K3 : on u v (- (u / r) * (b * (1 + z / 2 + z * z / 4))) k3).
  { apply rhs_on; [exact R0 | apply Rgt_not_eq; apply Rmult_lt_0_compat; assumption | exact Y3]. }
  set (y4 := axpy h k3 Y).
  assert (Y4 : on u v (b * (1 + z + z * z / 2 + z * z * z / 4)) y4).
  { replace (b * (1 + z + z * z / 2 + z * z * z / 4)) with (b + h * (- (u / r) * (b * (1 + z / 2 + z * z / 4)))) by (unfold z; field; exact R0). apply axpy_on; assumption. }
  set (k4 := rhs P r y4).
  assert (K4 : on u v (- (u / r) * (b * (1 + z + z * z / 2 + z * z * z / 4))) k4).
  { apply rhs_on; [exact R0 | apply Rgt_not_eq; apply Rmult_lt_0_compat; assumption | exact Y4]. }
  assert (F := axpy_on u v (h / 6) _ _ _ _ (axpy_on u v (h / 3) _ _ _ _ (axpy_on u v (h / 3) _ _ _ _ (axpy_on u v (h / 6) _ _ _ _ HY K1) K2) K3) K4).
  replace (b * P4 z) with
    (b + h / 6 * (- (u / r) * b) + h / 3 * (- (u / r) * (b * (1 + z / 2))) + h / 3 * (- (u / r) * (b * (1 + z / 2 + z * z / 4))) +
     h / 6 * (- (u / r) * (b * (1 + z + z * z / 2 + z * z * z / 4)))) by (unfold P4, z; field; exact R0).
  exact F.
Qed.
End Step.

(** ** perfect gas: pressure *)
Definition gas_pressure (g : R) (U : axi) : R := (g - 1) * (a_E U - (a_mr U * a_mr U + a_ma U * a_ma U) / a_rho U / 2).
(** internal energy p / (g-1) besides the kinetic energy *)
Definition onE (g u v b p : R) (U : axi) : Prop := on u v b U /\ a_E U = p / (g - 1) + b * (u * u + v * v) / 2.
Lemma rhs_onE : forall g r u v b p U, 1 < g -> r <> 0 -> b <> 0 -> onE g u v b p U ->
  onE g u v (- (u / r) * b) (- (g * (u / r)) * p) (rhs (gas_pressure g) r U).
Proof.
  intros g r u v b p U Hg Hr Hb [O E]. split; [apply rhs_on; assumption|]. destruct O as [E1 [E2 E3]].
  unfold rhs, gas_pressure. cbn [a_E]. rewrite E, E1, E2, E3. field. repeat split; lra.
Qed.
Lemma axpy_onE : forall g u v h b k p l Y K, onE g u v b p Y -> onE g u v k l K -> onE g u v (b + h * k) (p + h * l) (axpy h K Y).
Proof.
  intros g u v h b k p l Y K [O E] [O' E']. split; [apply axpy_on; assumption|]. unfold axpy. cbn [a_E]. rewrite E, E'. unfold Rdiv. ring.
Qed.

Lemma rk4_onE : forall g r u v h b p Y, 1 < g -> 0 < r -> 0 < b -> -1 <= - (h * (u / r)) <= 0 -> onE g u v b p Y ->
  onE g u v (b * P4 (- (h * (u / r)))) (p * P4 (g * - (h * (u / r)))) (rk4 (rhs (gas_pressure g) r) h Y).
Proof.
  intros g r u v h b p Y Hg Hr Hb Hz HY. set (z := - (h * (u / r))) in *.
  destruct (stage_pos r u h Hz) as [S2 [S3 S4]]. fold z in S2, S3, S4. unfold rk4.
  assert (R0 : r <> 0) by lra.
  set (f := rhs (gas_pressure g) r).
  set (k1 := f Y).
  assert (K1 : onE g u v (- (u / r) * b) (- (g * (u / r)) * p) k1) by (apply rhs_onE; [exact Hg | exact R0 | lra | exact HY]).
  set (y2 := axpy (h / 2) k1 Y).
  assert (Y2 : onE g u v (b * (1 + z / 2)) (p * (1 + g * z / 2)) y2).
  { replace (b * (1 + z / 2)) with (b + h / 2 * (- (u / r) * b)) by (unfold z; field; exact R0).
    replace (p * (1 + g * z / 2)) with (p + h / 2 * (- (g * (u / r)) * p)) by (unfold z; field; exact R0). apply axpy_onE; assumption. }
  set (k2 := f y2).
  assert (K2 : onE g u v (- (u / r) * (b * (1 + z / 2))) (- (g * (u / r)) * (p * (1 + g * z / 2))) k2).
  { apply rhs_onE; [exact Hg | exact R0 | apply Rgt_not_eq; apply Rmult_lt_0_compat; assumption | exact Y2]. }
  set (y3 := axpy (h / 2) k2 Y).
  assert (Y3 : onE g u v (b * (1 + z / 2 + z * z / 4)) (p * (1 + g * z / 2 + g * z * (g * z) / 4)) y3).
  { replace (b * (1 + z / 2 + z * z / 4)) with (b + h / 2 * (- (u / r) * (b * (1 + z / 2)))) by (unfold z; field; exact R0).
    replace (p * (1 + g * z / 2 + g * z * (g * z) / 4)) with (p + h / 2 * (- (g * (u / r)) * (p * (1 + g * z / 2)))) by (unfold z; field; exact R0).
    apply axpy_onE; assumption. }
  set (k3 := f y3).
  assert (K3 : onE g u v (- (u / r) * (b * (1 + z / 2 + z * z / 4))) (- (g * (u / r)) * (p * (1 + g * z / 2 + g * z * (g * z) / 4))) k3).
  { apply rhs_onE; [exact Hg | exact R0 | apply Rgt_not_eq; apply Rmult_lt_0_compat; assumption | exact Y3]. }
  set (y4 := axpy h k3 Y).
  assert (Y4 : onE g u v (b * (1 + z + z * z / 2 + z * z * z / 4)) (p * (1 + g * z + g * z * (g * z) / 2 + g * z * (g * z) * (g * z) / 4)) y4).
  { replace (b * (1 + z + z * z / 2 + z * z * z / 4)) with (b + h * (- (u / r) * (b * (1 + z / 2 + z * z / 4)))) by (unfold z; field; exact R0).
    replace (p * (1 + g * z + g * z * (g * z) / 2 + g * z * (g * z) * (g * z) / 4)) with (p + h * (- (g * (u / r)) * (p * (1 + g * z / 2 + g * z * (g * z) / 4)))) by (unfold z; field; exact R0).
    apply axpy_onE; assumption. }
  set (k4 := f y4).
  assert (K4 : onE g u v (- (u / r) * (b * (1 + z + z * z / 2 + z * z * z / 4))) (- (g * (u / r)) * (p * (1 + g * z + g * z * (g * z) / 2 + g * z * (g * z) * (g * z) / 4))) k4).
  { apply rhs_onE; [exact Hg | exact R0 | apply Rgt_not_eq; apply Rmult_lt_0_compat; assumption | exact Y4]. }
  assert (F := axpy_onE g u v (h / 6) _ _ _ _ _ _ (axpy_onE g u v (h / 3) _ _ _ _ _ _ (axpy_onE g u v (h / 3) _ _ _ _ _ _ (axpy_onE g u v (h / 6) _ _ _ _ _ _ HY K1) K2) K3) K4).
  replace (b * P4 z) with
    (b + h / 6 * (- (u / r) * b) + h / 3 * (- (u / r) * (b * (1 + z / 2))) + h / 3 * (- (u / r) * (b * (1 + z / 2 + z * z / 4))) +
     h / 6 * (- (u / r) * (b * (1 + z + z * z / 2 + z * z * z / 4)))) by (unfold P4, z; field; exact R0).
  replace (p * P4 (g * z)) with
    (p + h / 6 * (- (g * (u / r)) * p) + h / 3 * (- (g * (u / r)) * (p * (1 + g * z / 2))) + h / 3 * (- (g * (u / r)) * (p * (1 + g * z / 2 + g * z * (g * z) / 4))) +
     h / 6 * (- (g * (u / r)) * (p * (1 + g * z + g * z * (g * z) / 2 + g * z * (g * z) * (g * z) / 4)))) by (unfold P4, z; field; exact R0).
  exact F.
Qed.

(** ** the loop *)
Lemma iter_shift : forall {A} (f : A -> A) n x, Nat.iter n f (f x) = Nat.iter (S n) f x.
Proof. intros A f n x. induction n as [|n IH]; [reflexivity|]. change (f (Nat.iter n f (f x)) = f (Nat.iter (S n) f x)). rewrite IH. reflexivity. Qed.
Lemma loop_steps : forall f tend h, 0 < h -> 0 <= tend ->
  exists K, INR K * h <= tend < INR (S K) * h /\
    forall y, exists fuel, integrate_const fuel f tend h 0 y = Some (Nat.iter K (rk4 f h) y, K).
Proof.
  intros f tend h Hh Ht.
  assert (A : exists K : nat, INR K * h <= tend < INR (S K) * h).
  { destruct (archimed (tend / h)) as [A1 A2]. assert (Q : 0 <= tend / h) by (apply Rmult_le_pos; [exact Ht | left; apply Rinv_0_lt_compat; exact Hh]).
    assert (U : (0 < up (tend / h))%Z) by (apply lt_IZR; lra).
    exists (Z.to_nat (up (tend / h) - 1)). rewrite S_INR. rewrite INR_IZR_INZ. rewrite Z2Nat.id by lia. rewrite minus_IZR.
    assert (E : tend = tend / h * h) by (field; lra). split.
    - rewrite E at 2. apply Rmult_le_compat_r; lra.
    - rewrite E at 1. apply Rmult_lt_compat_r; lra. }
  destruct A as [K [K1 K2]]. exists K. split; [split; assumption|]. intro y. exists K.
  assert (G : forall j k z, (j + k = K)%nat -> integrate_const j f tend h k z = Some (Nat.iter j (rk4 f h) z, K)).
  { induction j as [|j IH]; intros k z E; cbn [integrate_const]; destruct (Rlt_dec 0 h) as [_|N]; try contradiction.
    - replace k with K by lia. destruct (Rle_dec (INR K * h + h) tend) as [L|_]; [|reflexivity]. rewrite S_INR in K2. lra.
    - destruct (Rle_dec (INR k * h + h) tend) as [_|N].
      + rewrite IH by lia. rewrite iter_shift. reflexivity.
      + exfalso. apply N. replace (INR k * h + h) with (INR (S k) * h) by (rewrite S_INR; ring).
        apply Rle_trans with (INR K * h); [|exact K1]. apply Rmult_le_compat_r; [lra|]. apply le_INR. lia. }
  apply G. lia.
Qed.

Lemma loop_negative : forall fuel f tend h y, h < 0 < tend -> integrate_const fuel f tend h 0 y = Some (y, O).
Proof.
  intros fuel f tend h y [H1 H2]. destruct fuel; cbn [integrate_const]; destruct (Rlt_dec 0 h) as [N|_]; try lra;
    (destruct (Rle_dec tend (INR 0 * h + h)) as [L|_]; [cbn [INR] in L; lra | reflexivity]).
Qed.
