(** Lemmas for C96: the exponential function and its Taylor polynomials, repeated steps. *)
From Coq Require Import List Reals Bool Lra Lia.
From Verif Require Import AxisymModel AxisymProofs.
Local Open Scope R_scope.

Fixpoint taylor (n : nat) (x : R) : R := match n with O => 1 | S m => taylor m x + (Ropp 1) ^ n * x ^ n / INR (fact n) end.
Definition minus_taylor_d (n : nat) (x : R) : R := match n with O => 0 | S m => - taylor m x end.
Lemma taylor_derivative : forall n x, derivable_pt_lim (taylor n) x (minus_taylor_d n x).
Proof.
  induction n as [|n IH]; intro x.
  - apply (derivable_pt_lim_const 1 x).
  - cbn [minus_taylor_d].
    assert (E : - taylor n x = minus_taylor_d n x + (Ropp 1) ^ S n / INR (fact (S n)) * (INR (S n) * x ^ n)).
    { assert (F : INR (fact n) <> 0) by apply INR_fact_neq_0. assert (G : INR (S n) <> 0) by (apply not_0_INR; lia).
      rewrite fact_simpl, mult_INR.
      destruct n as [|m]; cbn [minus_taylor_d taylor].
      - cbn [pow fact INR]. field.
      - rewrite <- tech_pow_Rmult with (n := S m). field. split; assumption. }
    rewrite E.
    apply (derivable_pt_lim_plus (taylor n) (fun y => (Ropp 1) ^ S n * y ^ S n / INR (fact (S n)))); [apply IH|].
    apply derivable_pt_lim_ext with (f := mult_real_fct ((Ropp 1) ^ S n / INR (fact (S n))) (fun y => y ^ S n)).
    + intro y. unfold mult_real_fct. unfold Rdiv. ring.
    + apply derivable_pt_lim_scal. apply (derivable_pt_lim_pow x (S n)).
Qed.

Lemma from_zero : forall f f', (forall x, derivable_pt_lim f x (f' x)) -> f 0 = 0 -> (forall x, 0 <= x -> 0 <= f' x) -> forall x, 0 <= x -> 0 <= f x.
Proof.
  intros f f' D Z P x Hx. destruct (Rle_lt_or_eq_dec 0 x Hx) as [L|E]; [|rewrite <- E, Z; lra].
  destruct (MVT_cor2 f f' 0 x L (fun c _ => D c)) as [c [E [C1 C2]]]. rewrite Z in E.
  assert (0 <= f' c * (x - 0)) by (apply Rmult_le_pos; [apply P; lra | lra]). lra.
Qed.

Lemma exp_minus_derivative : forall x, derivable_pt_lim (fun y => exp (- y)) x (- exp (- x)).
Proof.
  intro x. replace (- exp (- x)) with (exp (- x) * Ropp 1) by ring.
  apply (derivable_pt_lim_comp (fun y => - y) exp x (Ropp 1) (exp (- x))).
  - replace (Ropp 1) with (- (1)) by ring. apply (derivable_pt_lim_opp (fun y => y) x 1). apply derivable_pt_lim_id.
  - apply derivable_pt_lim_exp.
Qed.
Lemma taylor_0 : forall n, taylor n 0 = 1.
Proof. induction n as [|n IH]; [reflexivity|]. cbn [taylor]. rewrite IH, pow_i by lia. unfold Rdiv. ring. Qed.

Lemma alternating : forall n x, 0 <= x -> 0 <= (Ropp 1) ^ S n * (exp (- x) - taylor n x).
Proof.
  induction n as [|n IH]; intros x Hx.
  - cbn [taylor pow]. assert (exp (- x) <= 1).
    { destruct (Rle_lt_or_eq_dec 0 x Hx) as [L|E]; [left; rewrite <- exp_0; apply exp_increasing; lra | rewrite <- E, Ropp_0, exp_0; lra]. }
    lra.
  - apply (from_zero (fun y => (Ropp 1) ^ S (S n) * (exp (- y) - taylor (S n) y)) (fun y => (Ropp 1) ^ S n * (exp (- y) - taylor n y))).
    + intro y. replace ((Ropp 1) ^ S n * (exp (- y) - taylor n y)) with ((Ropp 1) ^ S (S n) * (- exp (- y) - minus_taylor_d (S n) y)).
      * apply (derivable_pt_lim_scal (fun z => exp (- z) - taylor (S n) z) ((Ropp 1) ^ S (S n)) y).
        apply (derivable_pt_lim_minus (fun z => exp (- z)) (taylor (S n))); [apply exp_minus_derivative | apply taylor_derivative].
      * cbn [minus_taylor_d]. rewrite <- tech_pow_Rmult with (n := S n). ring.
    + rewrite Ropp_0, exp_0, taylor_0. ring.
    + exact IH.
    + exact Hx.
Qed.

Lemma P4_exp : forall x, 0 <= x -> 0 <= P4 (- x) - exp (- x) <= x ^ 5 / 120.
Proof.
  intros x Hx. generalize (alternating 4 x Hx) (alternating 5 x Hx).
  assert (E4 : taylor 4 x = P4 (- x)).
  { unfold P4. cbn [taylor pow]. replace (INR (fact 1)) with 1 by (cbn; lra). replace (INR (fact 2)) with 2 by (cbn; lra).
    replace (INR (fact 3)) with 6 by (cbn; lra). replace (INR (fact 4)) with 24 by (cbn; lra). field. }
  assert (E5 : taylor 5 x = P4 (- x) - x ^ 5 / 120).
  { change (taylor 5 x) with (taylor 4 x + (Ropp 1) ^ 5 * x ^ 5 / INR (fact 5)). rewrite E4. replace (INR (fact 5)) with 120 by (cbn; lra).
    replace ((Ropp 1) ^ 5) with (Ropp 1) by ring. field. }
  rewrite E4, E5. replace ((Ropp 1) ^ 5) with (Ropp 1) by ring. replace ((Ropp 1) ^ 6) with 1 by ring. lra.
Qed.
Lemma P4_le_1 : forall x, 0 <= x <= 1 -> P4 (- x) <= 1.
Proof.
  intros x [H0 H1]. unfold P4.
  assert (A : 0 <= x * x) by (generalize (Rle_0_sqr x); unfold Rsqr; lra).
  assert (B : x * x <= x) by (rewrite <- (Rmult_1_r x) at 3; apply Rmult_le_compat_l; lra).
  assert (C : 0 <= x * x * x) by (apply Rmult_le_pos; lra).
  assert (D : x * x * x * x <= x * x * x) by (rewrite <- (Rmult_1_r (x * x * x)) at 2; apply Rmult_le_compat_l; lra).
  replace (- x * - x) with (x * x) by ring. replace (x * x * - x) with (- (x * x * x)) by ring. replace (- (x * x * x) * - x) with (x * x * x * x) by ring. lra.
Qed.
Lemma pow_diff : forall a b n, 0 <= b <= a -> a <= 1 -> 0 <= a ^ n - b ^ n <= INR n * (a - b).
Proof.
  intros a b n [B0 B1] A1. induction n as [|n IH]; [cbn; lra|].
  assert (PA : 0 <= a ^ n) by (apply pow_le; lra). assert (PB : 0 <= b ^ n) by (apply pow_le; exact B0).
  assert (PB1 : b ^ n <= 1) by (rewrite <- (pow1 n); apply pow_incr; lra).
  rewrite S_INR, <- !tech_pow_Rmult. replace (a * a ^ n - b * b ^ n) with (a * (a ^ n - b ^ n) + (a - b) * b ^ n) by ring.
  assert (0 <= a * (a ^ n - b ^ n)) by (apply Rmult_le_pos; lra).
  assert (0 <= (a - b) * b ^ n) by (apply Rmult_le_pos; lra).
  assert (a * (a ^ n - b ^ n) <= 1 * (a ^ n - b ^ n)) by (apply Rmult_le_compat_r; lra).
  assert ((a - b) * b ^ n <= (a - b) * 1) by (apply Rmult_le_compat_l; lra).
  lra.
Qed.
Lemma exp_INR : forall x n, exp (- x) ^ n = exp (- (INR n * x)).
Proof.
  intros x n. induction n as [|n IH]; [cbn [pow INR]; rewrite Rmult_0_l, Ropp_0, exp_0; reflexivity|].
  rewrite <- tech_pow_Rmult, IH, <- exp_plus, S_INR. f_equal. ring.
Qed.

(** ** repeated steps *)
Lemma iter_on : forall P r u v h b Y K, 0 < r -> 0 < b -> -1 <= - (h * (u / r)) <= 0 -> on u v b Y ->
  on u v (b * P4 (- (h * (u / r))) ^ K) (Nat.iter K (rk4 (rhs P r) h) Y).
Proof.
  intros P r u v h b Y K Hr Hb Hz HY. induction K as [|K IH]; [cbn [pow]; rewrite Rmult_1_r; exact HY|].
  change (Nat.iter (S K) (rk4 (rhs P r) h) Y) with (rk4 (rhs P r) h (Nat.iter K (rk4 (rhs P r) h) Y)).
  replace (b * P4 (- (h * (u / r))) ^ S K) with (b * P4 (- (h * (u / r))) ^ K * P4 (- (h * (u / r)))) by (rewrite <- tech_pow_Rmult; ring).
  apply rk4_on; [exact Hr | | exact IH | exact Hz]. apply Rmult_lt_0_compat; [exact Hb | apply pow_lt, P4_pos].
Qed.
Lemma iter_onE : forall g r u v h b p Y K, 1 < g -> 0 < r -> 0 < b -> -1 <= - (h * (u / r)) <= 0 -> onE g u v b p Y ->
  onE g u v (b * P4 (- (h * (u / r))) ^ K) (p * P4 (g * - (h * (u / r))) ^ K) (Nat.iter K (rk4 (rhs (gas_pressure g) r) h) Y).
Proof.
  intros g r u v h b p Y K Hg Hr Hb Hz HY. induction K as [|K IH]; [cbn [pow]; rewrite !Rmult_1_r; exact HY|].
  change (Nat.iter (S K) (rk4 (rhs (gas_pressure g) r) h) Y) with (rk4 (rhs (gas_pressure g) r) h (Nat.iter K (rk4 (rhs (gas_pressure g) r) h) Y)).
  replace (b * P4 (- (h * (u / r))) ^ S K) with (b * P4 (- (h * (u / r))) ^ K * P4 (- (h * (u / r)))) by (rewrite <- tech_pow_Rmult; ring).
  replace (p * P4 (g * - (h * (u / r))) ^ S K) with (p * P4 (g * - (h * (u / r))) ^ K * P4 (g * - (h * (u / r)))) by (rewrite <- tech_pow_Rmult; ring).
  apply rk4_onE; [exact Hg | exact Hr | | exact Hz | exact IH]. apply Rmult_lt_0_compat; [exact Hb | apply pow_lt, P4_pos].
Qed.

(** the step for outflow: z between -1 and 0 *)
Lemma step_outflow : forall r dt u, 0 < r -> 0 < dt -> 0 <= u -> 0 < step_size r dt u <= dt /\ 0 <= step_size r dt u * (u / r) <= 1.
Proof.
  intros r dt u Hr Hd Hu. unfold step_size. assert (I : 0 < / r) by (apply Rinv_0_lt_compat; exact Hr).
  destruct (Req_EM_T u 0) as [-> | N].
  - unfold Rdiv. rewrite Rmult_0_l, Rmult_0_r. lra.
  - assert (PU : 0 < u) by lra. assert (IU : 0 < / u) by (apply Rinv_0_lt_compat; exact PU).
    assert (RU : 0 < r / u) by (apply Rmult_lt_0_compat; assumption). assert (UR : 0 < u / r) by (apply Rmult_lt_0_compat; assumption).
    assert (E : r / u * (u / r) = 1) by (field; lra).
    destruct (Rlt_dec (r / u) dt) as [L|L].
    + rewrite E. lra.
    + apply Rnot_lt_le in L. split; [lra|]. split; [apply Rmult_le_pos; lra|]. rewrite <- E. apply Rmult_le_compat_r; lra.
Qed.
