(** C38 (Newton iteration), convergence for concave functions. *)
From Coq Require Import Reals ZArith Bool Lra Lia.
From Verif Require Import NewtonModel NewtonSpec NewtonProofs NewtonProofs2.
Local Open Scope R_scope.

(** Concave increasing functions, given on the positive numbers, with a root r: started left of the root a solution is
    returned, since every step divides the product of residual and slope by four. *)
Theorem C38_concave_converges : forall F DF f df r x0 tol m,
  (forall x, 0 < x -> F x = Fin (f x)) -> (forall x, 0 < x -> DF x = Fin (df x)) ->
  (forall x, 0 < x -> 0 < df x) -> (forall x y, 0 < x -> 0 < y -> f y <= f x + df x * (y - x)) ->
  f r = 0 -> 0 < tol -> 0 < x0 <= r -> (0 <= m)%Z -> - f x0 * df x0 <= tol * df r * 4 ^ Z.to_nat m ->
  exists x, NewtonIteration F DF x0 tol m = Returned x /\ solves F tol x /\ x0 <= x <= r.
Proof.
  intros F DF f df r x0 tol m HF HD Hd Ht Hr Htol Hx Hm Hb.
  destruct (newton_below F DF f df r tol HF HD Hd Ht ltac:(lra) Hr Htol x0 m Hx Hm Hb) as (x & E & Hxr & A).
  exists x. split; [exact E|]. split; [|exact Hxr]. exists (f x). split; [apply HF; lra|].
  pose proof (Rle_abs (f x)). assert (- f x <= Rabs (f x)) by (rewrite <- Rabs_Ropp; apply Rle_abs). lra.
Qed.
Print Assumptions C38_concave_converges.

(** Started right of the root the iterates are halved while the Newton step is negative; the first other step goes to the
    left of the root.  If it does not come closer to zero than del, a solution is returned. *)
Theorem C38_concave_halving : forall F DF f df r x0 tol m n1 n2 del,
  (forall x, 0 < x -> F x = Fin (f x)) -> (forall x, 0 < x -> DF x = Fin (df x)) ->
  (forall x, 0 < x -> 0 < df x) -> (forall x y, 0 < x -> 0 < y -> f y <= f x + df x * (y - x)) ->
  f r = 0 -> 0 < tol -> 0 < r < x0 -> x0 <= r * 2 ^ n1 -> m = Z.of_nat (n1 + n2) -> 0 < del <= r / 2 ->
  (forall k, let y := x0 / 2 ^ k in r < y -> y - f y / df y < 0 \/ del <= y - f y / df y) ->
  - f del * df del <= tol * df r * 4 ^ n2 ->
  exists x, NewtonIteration F DF x0 tol m = Returned x /\ solves F tol x /\ 0 < x.
Proof.
  intros F DF f df r x0 tol m n1 n2 del HF HD Hd Ht Hr Htol Hx Hn Hm Hdel Hs Hb.
  destruct (newton_above F DF f df r tol HF HD Hd Ht ltac:(lra) Hr Htol x0 m n1 n2 del ltac:(lra) Hn (eq_sym Hm) Hdel Hs Hb) as (x & E & Hx0 & A).
  exists x. split; [exact E|]. split; [|exact Hx0]. exists (f x). split; [apply HF; lra|].
  pose proof (Rle_abs (f x)). assert (- f x <= Rabs (f x)) by (rewrite <- Rabs_Ropp; apply Rle_abs). lra.
Qed.
Print Assumptions C38_concave_halving.

(** The logarithm with its root at 1. *)
Definition log (x : R) : dbl := if Rlt_dec 0 x then Fin (ln x) else NaN.
Definition dlog (x : R) : dbl := Fin (/ x).

Lemma log_tangent x y : 0 < x -> 0 < y -> ln y <= ln x + / x * (y - x).
Proof.
  intros Hx Hy. pose proof (exp_ineq1_le (ln (y / x))) as H. assert (0 < y / x) as P by (apply Rdiv_lt_0_compat; lra).
  rewrite exp_ln in H by exact P. unfold Rdiv in H. rewrite ln_mult, ln_Rinv in H; auto using Rinv_0_lt_compat.
  replace (/ x * (y - x)) with (y * / x - 1) by (field; lra). lra.
Qed.

Lemma ln2_upper : ln 2 < 3 / 4.
Proof.
  rewrite <- (ln_exp (3 / 4)). apply ln_increasing; [lra|].
  assert (forall x y : R, 0 < y -> y < exp x -> y * y < exp (x + x)) as D.
  { intros x y H0 H. rewrite exp_plus. apply Rmult_le_0_lt_compat; lra. }
  assert (1 + 3 / 32 < exp (3 / 32)) as H by (apply exp_ineq1; lra).
  apply D in H; [|lra]. apply D in H; [|lra]. apply D in H; [|lra].
  replace (3 / 4) with (3 / 32 + 3 / 32 + (3 / 32 + 3 / 32) + (3 / 32 + 3 / 32 + (3 / 32 + 3 / 32))) by lra. lra.
Qed.

Example C38_concave_converges_example : exists x, NewtonIteration log dlog (1 / 2) (1 / 10000000) 13 = Returned x /\
  solves log (1 / 10000000) x /\ 1 / 2 <= x <= 1.
Proof.
  apply (C38_concave_converges log dlog ln Rinv 1 (1 / 2)).
  - intros x Hx. unfold log. destruct (Rlt_dec 0 x); [reflexivity|contradiction].
  - reflexivity.
  - apply Rinv_0_lt_compat.
  - apply log_tangent.
  - apply ln_1.
  - lra.
  - lra.
  - lia.
  - replace (1 / 2) with (/ 2) by lra. rewrite ln_Rinv by lra. pose proof ln2_upper. rewrite Rinv_1, Rinv_inv.
    replace (Z.to_nat 13) with 13%nat by reflexivity. lra.
Qed.

Example C38_concave_halving_example : exists x, NewtonIteration log dlog 8 (1 / 10000000) 16 = Returned x /\
  solves log (1 / 10000000) x /\ 0 < x.
Proof.
  pose proof ln2_upper as L2. pose proof ln_lt_2 as L1.
  apply (C38_concave_halving log dlog ln Rinv 1 8 (1 / 10000000) 16 3 13 (1 / 2)).
  - intros x Hx. unfold log. destruct (Rlt_dec 0 x); [reflexivity|contradiction].
  - reflexivity.
  - apply Rinv_0_lt_compat.
  - apply log_tangent.
  - apply ln_1.
  - lra.
  - lra.
  - lra.
  - reflexivity.
  - lra.
  - assert (ln 4 = 2 * ln 2) as E4 by (replace 4 with (2 * 2) by lra; rewrite ln_mult by lra; ring).
    assert (ln 8 = 3 * ln 2) as E8 by (replace 8 with (2 * 4) by lra; rewrite ln_mult, E4 by lra; ring).
    intros k y Hy. destruct k as [|[|[|k]]].
    + assert (y = 8) as -> by (unfold y; cbn; field). left. rewrite E8. unfold Rdiv. rewrite Rinv_inv. lra.
    + assert (y = 4) as -> by (unfold y; cbn; field). left. rewrite E4. unfold Rdiv. rewrite Rinv_inv. lra.
    + assert (y = 2) as -> by (unfold y; cbn; field). right. unfold Rdiv. rewrite Rinv_inv. lra.
    + exfalso. assert (1 <= 2 ^ k) as P by (apply pow_R1_Rle; lra).
      assert (y = / 2 ^ k) as E by (unfold y; cbn [pow]; field; lra).
      assert (/ 2 ^ k <= / 1) by (apply Rinv_le_contravar; lra). lra.
  - replace (1 / 2) with (/ 2) by lra. rewrite ln_Rinv by lra. rewrite Rinv_1, Rinv_inv. lra.
Qed.
