(** C38 (Newton iteration). *)
From Coq Require Import Reals ZArith Lra Lia.
From Verif Require Import NewtonModel NewtonSpec NewtonProofs.
Local Open Scope R_scope.

(** What holds for every function and derivative (also for those with infinite and NaN values): a returned value
    solves the equation, or the function value is NaN, or it is below minus the tolerance. *)
Theorem C38_returned_partial : forall f Df x0 tol m x, (0 <= m)%Z -> NewtonIteration f Df x0 tol m = Returned x ->
  solves f tol x \/ f x = NaN \/ f x = NInf \/ exists v, f x = Fin v /\ v < - tol.
Proof.
  intros f Df x0 tol m x Hm E. destruct (newton_returns f Df x0 tol m x Hm E) as [H | [H | [H | H]]]; auto.
Qed.
Print Assumptions C38_returned_partial.

(** Hence the full claim for functions which are not NaN and nowhere below minus the tolerance. *)
Theorem C38_bounded_below_partial : forall f Df x0 tol m x, (0 <= m)%Z ->
  (forall y, f y <> NaN /\ f y <> NInf /\ forall v, f y = Fin v -> - tol <= v) ->
  NewtonIteration f Df x0 tol m = Returned x -> solves f tol x.
Proof.
  intros f Df x0 tol m x Hm Hf E. destruct (Hf x) as (N1 & N2 & N3).
  destruct (C38_returned_partial f Df x0 tol m x Hm E) as [H | [H | [H | (v & H & L)]]]; auto; try contradiction.
  specialize (N3 v H). lra.
Qed.
Print Assumptions C38_bounded_below_partial.

(** Exceptions are justified: the function value there exceeds the tolerance. *)
Theorem C38_throws : forall f Df x0 tol m x, NewtonIteration f Df x0 tol m = Thrown x ->
  f x = PInf \/ exists v, f x = Fin v /\ v > tol.
Proof. exact newton_throws. Qed.
Print Assumptions C38_throws.

(** From a start value which is not negative the result is not negative, e.g. pressures. *)
Theorem C38_nonnegative : forall f Df x0 tol m x, 0 <= x0 -> NewtonIteration f Df x0 tol m = Returned x -> 0 <= x.
Proof. exact newton_nonneg. Qed.
Print Assumptions C38_nonnegative.

(** Affine functions: solved in one step whenever the root is not negative. *)
Theorem C38_affine : forall s r x0 tol m, s <> 0 -> 0 <= r -> 0 <= tol -> (1 <= m)%Z ->
  exists x, NewtonIteration (fun x => Fin (s * (x - r))) (fun _ => Fin s) x0 tol m = Returned x /\
            solves (fun x => Fin (s * (x - r))) tol x.
Proof.
  intros s r x0 tol m Hs Hr Ht Hm. destruct (newton_affine s r x0 tol m Hs Hr Ht Hm) as [[H E] | E]; eauto.
  exists r. split; auto. exists 0. split; [f_equal; ring | lra].
Qed.
Print Assumptions C38_affine.

Example C38_affine_example : exists x, NewtonIteration (fun x => Fin (2 * (x - 3))) (fun _ => Fin 2) 1 0 5000 = Returned x /\ x = 3.
Proof.
  destruct (C38_affine 2 3 1 0 5000 ltac:(lra) ltac:(lra) ltac:(lra) ltac:(lia)) as (x & E & v & H & L).
  exists x. split; auto. injection H as H. lra.
Qed.

(** Concave increasing functions (such as the pressure function of the exact Riemann solver) started left of the
    root: the iterates increase, stay left of the root, and the exception is never thrown even if the iteration
    limit is reached. *)
Theorem C38_concave : forall f df x0 tol m,
  (forall x, 0 <= x -> 0 < df x) -> (forall x y, 0 <= x -> 0 <= y -> f y <= f x + df x * (y - x)) ->
  0 <= x0 -> f x0 <= 0 -> 0 <= tol ->
  exists x, NewtonIteration (fun x => Fin (f x)) (fun x => Fin (df x)) x0 tol m = Returned x /\ x0 <= x /\ f x <= 0.
Proof.
  intros f df x0 tol m Hd Ht Hx Hf Htol. unfold NewtonIteration.
  pose proof (loop_concave f df tol (Z.to_nat m) x0 Hd Ht Hx Hf Htol) as L.
  destruct (newton_loop _ _ tol (Z.to_nat m) x0 _) as [[y fy] k]. destruct L as (L1 & L2 & ->).
  exists y. replace (gt (Fin (f y)) tol) with false; [rewrite Bool.andb_false_r; auto|].
  unfold gt. destruct (Rlt_dec tol (f y)); auto. lra.
Qed.
Print Assumptions C38_concave.

Example C38_concave_example : exists x,
  NewtonIteration (fun x => Fin (- / (1 + x) + 1 / 2)) (fun x => Fin (/ (1 + x) / (1 + x))) 0 (1 / 100) 3 = Returned x /\ 0 <= x.
Proof.
  destruct (C38_concave (fun x => - / (1 + x) + 1 / 2) (fun x => / (1 + x) / (1 + x)) 0 (1 / 100) 3) as (x & E & H & _); try lra.
  - intros x Hx. apply Rmult_lt_0_compat; apply Rinv_0_lt_compat; lra.
  - intros x y Hx Hy.
    assert (E : - / (1 + x) + 1 / 2 + / (1 + x) / (1 + x) * (y - x) - (- / (1 + y) + 1 / 2) =
                (x - y) * (x - y) * / (1 + x) * / (1 + x) * / (1 + y)) by (field; lra).
    assert (0 <= (x - y) * (x - y) * / (1 + x) * / (1 + x) * / (1 + y)); [|lra].
    apply Rmult_le_pos; [apply Rmult_le_pos; [apply Rmult_le_pos; [apply Rle_0_sqr|]|]|]; apply Rlt_le, Rinv_0_lt_compat; lra.
  - exists x. auto.
Qed.

(** The claim fails: a value at which the function is -1 is returned silently after any number of iterations... *)
Theorem C38_negative_residual_refuted : forall x0 tol m, 0 <= x0 -> 0 <= tol < 1 -> (0 <= m)%Z ->
  exists f Df x, NewtonIteration f Df x0 tol m = Returned x /\ ~ solves f tol x.
Proof.
  intros x0 tol m Hx Ht Hm. exists (fun _ => Fin (-1)), (fun _ => Fin 1), (x0 + INR (Z.to_nat m)).
  split.
  - unfold NewtonIteration. rewrite loop_const by auto. replace (gt (Fin (-1)) tol) with false; [rewrite Bool.andb_false_r; auto|].
    unfold gt. destruct (Rlt_dec tol (-1)); auto. lra.
  - intros (v & E & L). injection E as E. lra.
Qed.
Print Assumptions C38_negative_residual_refuted.

(** ... and a NaN function value ends the iteration at once. *)
Theorem C38_nan_refuted : forall f Df x0 tol m, f x0 = NaN ->
  NewtonIteration f Df x0 tol m = Returned x0 /\ ~ solves f tol x0.
Proof.
  intros f Df x0 tol m E. split.
  - unfold NewtonIteration. rewrite E. destruct (Z.to_nat m); cbn; rewrite ?Bool.andb_false_r; reflexivity.
  - intros (v & H & _). congruence.
Qed.
Print Assumptions C38_nan_refuted.

Example C38_refuted_example : exists f Df x, NewtonIteration f Df 1 (1 / 10000000) 5000 = Returned x /\ ~ solves f (1 / 10000000) x.
Proof. apply C38_negative_residual_refuted; lra || lia. Qed.

(** A function meeting the hypothesis of [C38_bounded_below_partial]: x^2 with its root at 0. *)
Example C38_bounded_below_example : forall x, NewtonIteration (fun x => Fin (x * x)) (fun x => Fin (2 * x)) 1 (1 / 100) 20 = Returned x ->
  solves (fun x => Fin (x * x)) (1 / 100) x.
Proof.
  intros x. apply C38_bounded_below_partial; [lia|]. intros y. repeat split; try discriminate.
  intros v E. injection E as <-. pose proof (Rle_0_sqr y). unfold Rsqr in *. lra.
Qed.
