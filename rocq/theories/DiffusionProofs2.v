(** Maximum principle, decay and growth for C95. *)
From Coq Require Import List ZArith Reals Bool Lra Lia.
From Verif Require Import DiffusionModel DiffusionSpec DiffusionProofs.
Local Open Scope R_scope.

Section Scalar.
Variables (n : Z) (a x y : Z -> R).
Hypothesis Ha : forall i, (0 <= i < n)%Z -> 0 <= a i <= 1 / 2.
Hypothesis Hy : forall i, (0 <= i < n)%Z -> y i = x i + a i / 2 * lap x i.

Lemma doubled : forall i, (0 <= i < n)%Z -> 2 * y i - x i = step (a i) (x (i - 1)%Z) (x i) (x (i + 1)%Z).
Proof. intros i Hi. rewrite Hy by exact Hi. unfold step, lap. field. Qed.
Lemma final_value : forall i, (0 <= i < n)%Z ->
  x i + a i * lap y i = (x i + step (a i) (2 * y (i - 1)%Z - x (i - 1)%Z) (2 * y i - x i) (2 * y (i + 1)%Z - x (i + 1)%Z)) / 2.
Proof. intros i Hi. unfold lap. apply two_stages. apply Hy. exact Hi. Qed.

Lemma maximum_principle : forall lo hi,
  (forall i, (0 <= i < n)%Z -> within lo hi (x i)) ->
  ghost_value lo hi n x y (-1) -> ghost_value lo hi n x y n ->
  forall i, (0 <= i < n)%Z -> within lo hi (x i + a i * lap y i).
Proof.
  intros lo hi Hx G1 G2 i Hi.
  assert (X : forall g, ghost_value lo hi n x y g -> within lo hi (x g)).
  { intros g [[_ H]|[[j [Hj [E _]]]|[L [j [Hj [E _]]]]]]; [exact H | rewrite E; apply Hx; exact Hj|].
    rewrite E. generalize (Hx j Hj). unfold within. subst lo. lra. }
  assert (XA : forall j, (-1 <= j <= n)%Z -> within lo hi (x j)).
  { intros j Hj. destruct (Z.eq_dec j (-1)) as [-> |N1]; [apply X; exact G1|]. destruct (Z.eq_dec j n) as [-> |N2]; [apply X; exact G2|].
    apply Hx. lia. }
  assert (ZI : forall j, (0 <= j < n)%Z -> within lo hi (2 * y j - x j)).
  { intros j Hj. rewrite doubled by exact Hj. apply step_within; [apply Ha; exact Hj | apply XA; lia | apply XA; lia | apply XA; lia]. }
  assert (ZG : forall g, ghost_value lo hi n x y g -> within lo hi (2 * y g - x g)).
  { intros g [[E H]|[[j [Hj [E1 E2]]]|[L [j [Hj [E1 E2]]]]]].
    - rewrite E. replace (2 * x g - x g) with (x g) by ring. exact H.
    - rewrite E1, E2. apply ZI. exact Hj.
    - rewrite E1, E2. generalize (ZI j Hj). unfold within. subst lo. lra. }
  assert (ZA : forall j, (-1 <= j <= n)%Z -> within lo hi (2 * y j - x j)).
  { intros j Hj. destruct (Z.eq_dec j (-1)) as [-> |N1]; [apply ZG; exact G1|]. destruct (Z.eq_dec j n) as [-> |N2]; [apply ZG; exact G2|].
    apply ZI. lia. }
  rewrite final_value by exact Hi.
  assert (S := step_within lo hi (a i) _ _ _ (Ha i Hi) (ZA (i - 1)%Z ltac:(lia)) (ZA i ltac:(lia)) (ZA (i + 1)%Z ltac:(lia))).
  generalize (Hx i Hi). unfold within in *. lra.
Qed.
End Scalar.

(** ** sums *)
Lemma total_ext : forall f g n, (forall i, (0 <= i < Z.of_nat n)%Z -> f i = g i) -> total f n = total g n.
Proof.
  intros f g n. induction n as [|n IH]; intro H; [reflexivity|]. cbn [total].
  rewrite IH by (intros i Hi; apply H; lia). rewrite H by lia. reflexivity.
Qed.
Lemma total_le : forall f g n, (forall i, (0 <= i < Z.of_nat n)%Z -> f i <= g i) -> total f n <= total g n.
Proof.
  intros f g n. induction n as [|n IH]; intro H; [apply Rle_refl|]. cbn [total].
  apply Rplus_le_compat; [apply IH; intros i Hi; apply H; lia | apply H; lia].
Qed.
Lemma total_plus : forall f g n, total (fun i => f i + g i) n = total f n + total g n.
Proof. intros f g n. induction n as [|n IH]; cbn [total]; [ring|]. rewrite IH. ring. Qed.
Lemma total_mult : forall c f n, total (fun i => c * f i) n = c * total f n.
Proof. intros c f n. induction n as [|n IH]; cbn [total]; [ring|]. rewrite IH. ring. Qed.
Lemma total_telescope : forall f n, total (fun i => f i - f (i + 1)%Z) n = f 0%Z - f (Z.of_nat n).
Proof.
  intros f n. induction n as [|n IH]; cbn [total]; [change (Z.of_nat 0) with 0%Z; ring|]. rewrite IH.
  replace (Z.of_nat n + 1)%Z with (Z.of_nat (S n)) by lia. ring.
Qed.
Lemma total_shift_up : forall f n, total (fun i => f (i + 1)%Z) n = total f n - f 0%Z + f (Z.of_nat n).
Proof.
  intros f n. generalize (total_telescope f n). intro T.
  assert (E : total (fun i => f i - f (i + 1)%Z) n = total f n - total (fun i => f (i + 1)%Z) n).
  { clear T. induction n as [|n IH]; cbn [total]; [ring|]. rewrite IH. ring. }
  lra.
Qed.
Lemma total_shift_down : forall f n, total (fun i => f (i - 1)%Z) n = total f n + f (-1)%Z - f (Z.of_nat n - 1)%Z.
Proof.
  intros f n. generalize (total_shift_up (fun i => f (i - 1)%Z) n). cbn beta. intro T.
  rewrite (total_ext (fun i => f (i + 1 - 1)%Z) f n) in T by (intros i _; f_equal; lia).
  change (0 - 1)%Z with (-1)%Z in T. lra.
Qed.

(** one explicit step does not increase the weighted sum of squares on a periodic grid *)
Lemma step_energy : forall n w a A x,
  (forall i, (0 <= i < Z.of_nat n)%Z -> 0 <= a i <= 1 / 2 /\ 0 <= w i /\ w i * a i = A) ->
  x (-1)%Z = x (Z.of_nat n - 1)%Z -> x (Z.of_nat n) = x 0%Z ->
  total (fun i => w i * (step (a i) (x (i - 1)%Z) (x i) (x (i + 1)%Z) * step (a i) (x (i - 1)%Z) (x i) (x (i + 1)%Z))) n
  <= total (fun i => w i * (x i * x i)) n.
Proof.
  intros n w a A x H P1 P2.
  apply Rle_trans with (total (fun i => w i * (x i * x i) + A * ((x (i - 1)%Z * x (i - 1)%Z + -2 * (x i * x i)) + x (i + 1)%Z * x (i + 1)%Z)) n).
  - apply total_le. intros i Hi. destruct (H i Hi) as [Ha [Hw E]]. rewrite <- E.
    assert (S := step_square (a i) (x (i - 1)%Z) (x i) (x (i + 1)%Z) Ha).
    apply Rmult_le_compat_l with (r := w i) in S; [|exact Hw]. lra.
  - rewrite total_plus, total_mult, !total_plus, total_mult.
    assert (D := total_shift_down (fun i => x i * x i) n). assert (U := total_shift_up (fun i => x i * x i) n). cbn beta in D, U.
    rewrite D, U, P1, P2. right. ring.
Qed.

Lemma periodic_energy : forall n w a A x y,
  (forall i, (0 <= i < Z.of_nat n)%Z -> 0 <= a i <= 1 / 2 /\ 0 <= w i /\ w i * a i = A) ->
  (forall i, (0 <= i < Z.of_nat n)%Z -> y i = x i + a i / 2 * lap x i) ->
  x (-1)%Z = x (Z.of_nat n - 1)%Z -> x (Z.of_nat n) = x 0%Z -> y (-1)%Z = y (Z.of_nat n - 1)%Z -> y (Z.of_nat n) = y 0%Z ->
  total (fun i => w i * ((x i + a i * lap y i) * (x i + a i * lap y i))) n <= total (fun i => w i * (x i * x i)) n.
Proof.
  intros n w a A x y H Hy P1 P2 P3 P4.
  set (z := fun i => 2 * y i - x i).
  assert (E1 : total (fun i => w i * (z i * z i)) n <= total (fun i => w i * (x i * x i)) n).
  { rewrite (total_ext _ (fun i => w i * (step (a i) (x (i - 1)%Z) (x i) (x (i + 1)%Z) * step (a i) (x (i - 1)%Z) (x i) (x (i + 1)%Z))) n).
    - apply step_energy with (A := A); assumption.
    - intros i Hi. unfold z. rewrite (doubled (Z.of_nat n) a x y Hy i Hi). reflexivity. }
  assert (E2 := step_energy n w a A z H). unfold z in E2 at 1 2 3 4. rewrite P1, P2, P3, P4 in E2. specialize (E2 eq_refl eq_refl).
  apply Rle_trans with (total (fun i => 1 / 2 * (w i * (x i * x i) + w i * (step (a i) (z (i - 1)%Z) (z i) (z (i + 1)%Z) * step (a i) (z (i - 1)%Z) (z i) (z (i + 1)%Z)))) n).
  - apply total_le. intros i Hi. rewrite (final_value (Z.of_nat n) a x y Hy i Hi).
    change (2 * y (i - 1)%Z - x (i - 1)%Z) with (z (i - 1)%Z). change (2 * y i - x i) with (z i). change (2 * y (i + 1)%Z - x (i + 1)%Z) with (z (i + 1)%Z).
    destruct (H i Hi) as [_ [Hw _]]. set (s := step (a i) (z (i - 1)%Z) (z i) (z (i + 1)%Z)). set (v := x i). clearbody s v.
    assert (Q : 0 <= w i * ((v - s) * (v - s))) by (apply Rmult_le_pos; [exact Hw|]; generalize (Rle_0_sqr (v - s)); unfold Rsqr; lra).
    replace (1 / 2 * (w i * (v * v) + w i * (s * s))) with (w i * ((v + s) / 2 * ((v + s) / 2)) + 1 / 4 * (w i * ((v - s) * (v - s)))) by field. lra.
  - rewrite total_mult, total_plus. fold z in E2. lra.
Qed.
