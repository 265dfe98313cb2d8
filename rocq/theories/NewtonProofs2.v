(** Lemmas for C38 and C77: the speed of convergence for concave functions. *)
From Coq Require Import Reals ZArith Bool Lra Lia Psatz.
From Verif Require Import NewtonModel NewtonSpec NewtonProofs.
Local Open Scope R_scope.

Section Concave.
Variables (F DF : R -> dbl) (f df : R -> R) (r tol : R).
Hypothesis HF : forall x, 0 < x -> F x = Fin (f x).
Hypothesis HDF : forall x, 0 < x -> DF x = Fin (df x).
Hypothesis Hdf : forall x, 0 < x -> 0 < df x.
Hypothesis Htan : forall x y, 0 < x -> 0 < y -> f y <= f x + df x * (y - x).
Hypothesis Hr : 0 < r.
Hypothesis Hroot : f r = 0.
Hypothesis Htol : 0 < tol.

Lemma slope_antitone x y : 0 < x -> x <= y -> df y <= df x.
Proof.
  intros Hx H. destruct (Req_dec x y) as [-> | N]; [lra|].
  pose proof (Htan x y Hx ltac:(lra)). pose proof (Htan y x ltac:(lra) Hx).
  assert (df y * (y - x) <= df x * (y - x)) by lra. apply Rmult_le_reg_r with (y - x); lra.
Qed.

Lemma concave_mono x y : 0 < x -> x <= y -> f x <= f y.
Proof.
  intros Hx H. pose proof (Htan y x ltac:(lra) Hx). pose proof (Hdf y ltac:(lra)). nra.
Qed.

Lemma concave_sign x : 0 < x -> (x <= r <-> f x <= 0).
Proof.
  intros Hx. split; intros H.
  - rewrite <- Hroot. apply concave_mono; auto.
  - destruct (Rle_dec x r); auto. exfalso. pose proof (Htan x r Hx Hr). pose proof (Hdf x Hx). nra.
Qed.

(** Left of the root: the product of the residual and the slope is divided by four in every step *)
Lemma loop_below n : forall x P, 0 < x <= r -> - f x * df x <= P ->
  let '(y, fy, k) := newton_loop F DF tol n x (F x) in
  x <= y <= r /\ fy = F y /\ (k = O -> Rabs (f y) <= tol \/ - f y * df y * 4 ^ n <= P) /\ (k <> O -> Rabs (f y) <= tol).
Proof.
  induction n as [|n IH]; intros x P Hx HP; cbn [newton_loop].
  - split; [lra|]. split; [reflexivity|]. split; [|lia]. intros _. right. cbn. lra.
  - rewrite (HF x) by lra. cbn [abs_gt]. destruct (Rlt_dec tol (Rabs (f x))) as [L|L].
    2:{ rewrite <- (HF x) by lra. split; [lra|]. split; [reflexivity|]. split; [discriminate|]. intros _. lra. }
    rewrite (HDF x) by lra. cbn [next_value].
    pose proof (Hdf x ltac:(lra)) as D. destruct (Req_EM_T (df x) 0); [lra|].
    assert (f x <= 0) as Fx by (apply concave_sign; lra). rewrite Rabs_left1 in L by lra.
    set (x' := x - f x / df x). cbn [next_x].
    assert (f x / df x < 0) as Q.
    { replace (f x / df x) with (- (- f x / df x)) by (field; lra).
      assert (0 < - f x / df x) by (apply Rdiv_lt_0_compat; lra). lra. }
    destruct (Rlt_dec x' 0) as [N|_]; [unfold x' in N; lra|].
    assert (f x + df x * (x' - x) = 0) as E by (unfold x'; field; lra).
    assert (x' <= r) as B.
    { pose proof (Htan x r ltac:(lra) Hr) as T. rewrite Hroot in T. assert (df x * x' <= df x * r) by lra.
      apply Rmult_le_reg_l with (df x); lra. }
    assert (x < x') as G by (unfold x'; lra).
    pose proof (Htan x' x ltac:(lra) ltac:(lra)) as T.
    pose proof (Hdf x' ltac:(lra)) as D'. assert (f x' <= 0) as Fx' by (apply concave_sign; lra).
    assert (4 * (- f x' * df x') <= - f x * df x) as Step.
    { set (a := - f x) in *. set (b := df x) in *. set (a' := - f x') in *. set (b' := df x') in *.
      assert (b * (x' - x) = a) as E1 by (unfold a; lra).
      assert (a' <= a - b' * (x' - x)) as T1 by (unfold a, a'; lra).
      assert (0 <= a') by (unfold a'; lra). assert (0 < a) by (unfold a; lra).
      set (h := x' - x) in *. assert (0 < h) by (unfold h; lra).
      (* a = b h, a' <= (b - b') h *)
      assert (a' * b' <= (b - b') * h * b') by (apply Rmult_le_compat_r; nra).
      assert (4 * ((b - b') * h * b') <= b * h * b).
      { assert (0 <= h * ((b - 2 * b') * (b - 2 * b'))) by (apply Rmult_le_pos; [lra|apply Rle_0_sqr]). nra. }
      rewrite <- E1. lra. }
    specialize (IH x' (P / 4) ltac:(lra) ltac:(lra)). destruct (newton_loop F DF tol n x' (F x')) as [[y fy] k].
    destruct IH as (I1 & I2 & I3 & I4). split; [lra|]. split; [exact I2|]. split; [|exact I4].
    intros Hk. destruct (I3 Hk) as [I|I]; auto. right. cbn [pow]. lra.
Qed.

Lemma newton_below x0 m : 0 < x0 <= r -> (0 <= m)%Z ->
  - f x0 * df x0 <= tol * df r * 4 ^ Z.to_nat m ->
  exists x, NewtonIteration F DF x0 tol m = Returned x /\ x0 <= x <= r /\ Rabs (f x) <= tol.
Proof.
  intros Hx Hm H. unfold NewtonIteration.
  pose proof (loop_below (Z.to_nat m) x0 _ Hx H) as L.
  destruct (newton_loop F DF tol (Z.to_nat m) x0 (F x0)) as [[y fy] k]. destruct L as (L1 & -> & L3 & L4).
  assert (f y <= 0) as S by (apply concave_sign; lra).
  exists y. rewrite (HF y) by lra. replace (gt (Fin (f y)) tol) with false
    by (unfold gt; destruct (Rlt_dec tol (f y)); auto; lra).
  rewrite andb_false_r. split; [reflexivity|]. split; [exact L1|].
  destruct k as [|k]; [|apply L4; lia]. destruct (L3 eq_refl) as [L|L]; [exact L|].
  pose proof (slope_antitone y r ltac:(lra) ltac:(lra)) as A. pose proof (Hdf r Hr) as Dr. pose proof (Hdf y ltac:(lra)) as Dy.
  rewrite Rabs_left1 by lra.
  assert (0 < 4 ^ Z.to_nat m) as P4 by (apply pow_lt; lra).
  assert (- f y * df y <= tol * df r) as B by (apply Rmult_le_reg_r with (4 ^ Z.to_nat m); lra).
  assert (- f y * df r <= - f y * df y) by (apply Rmult_le_compat_l; lra).
  apply Rmult_le_reg_r with (df r); lra.
Qed.

(** Right of the root: a negative Newton step halves the iterate, any other goes to the left of the root *)
Lemma loop_above n1 : forall n2 del x, r < x -> x <= r * 2 ^ n1 -> 0 < del <= r / 2 ->
  (forall k, r < x / 2 ^ k -> x / 2 ^ k - f (x / 2 ^ k) / df (x / 2 ^ k) < 0 \/ del <= x / 2 ^ k - f (x / 2 ^ k) / df (x / 2 ^ k)) ->
  - f del * df del <= tol * df r * 4 ^ n2 ->
  let '(y, fy, k) := newton_loop F DF tol (n1 + n2) x (F x) in
  0 < y /\ fy = F y /\ Rabs (f y) <= tol.
Proof.
  induction n1 as [|n1 IH]; intros n2 del x Hx Hn Hdel Hs Hc; [cbn in Hn; lra|].
  cbn [newton_loop Nat.add]. rewrite (HF x) by lra. cbn [abs_gt].
  destruct (Rlt_dec tol (Rabs (f x))) as [L|L]; [|rewrite <- (HF x) by lra; split; [lra|]; split; [reflexivity|lra]].
  rewrite (HDF x) by lra. cbn [next_value]. pose proof (Hdf x ltac:(lra)) as D.
  destruct (Req_EM_T (df x) 0); [lra|]. cbn [next_x].
  assert (forall y, del <= y <= r -> let '(z, fz, k) := newton_loop F DF tol (n1 + n2) y (F y) in 0 < z /\ fz = F z /\ Rabs (f z) <= tol) as Below.
  { intros y Hy. pose proof (slope_antitone del y ltac:(lra) ltac:(lra)) as A1.
    pose proof (concave_mono del y ltac:(lra) ltac:(lra)) as A2.
    pose proof (Hdf y ltac:(lra)) as A3. assert (f y <= 0) as A4 by (apply concave_sign; lra).
    assert (- f y * df y <= - f del * df del) as A5 by (apply Rmult_le_compat; lra).
    pose proof (loop_below (n1 + n2) y _ ltac:(lra) (Rle_trans _ _ _ A5 Hc)) as Q.
    destruct (newton_loop F DF tol (n1 + n2) y (F y)) as [[z fz] k]. destruct Q as (Q1 & Q2 & Q3 & Q4).
    split; [lra|]. split; [exact Q2|]. destruct k as [|k]; [|apply Q4; lia].
    destruct (Q3 eq_refl) as [Q|Q]; [exact Q|].
    assert (f z <= 0) as Z1 by (apply concave_sign; lra). rewrite Rabs_left1 by lra.
    pose proof (slope_antitone z r ltac:(lra) ltac:(lra)) as Z2. pose proof (Hdf r Hr) as Z3.
    rewrite pow_add in Q. assert (1 <= 4 ^ n1) as P1 by (apply pow_R1_Rle; lra).
    assert (0 < 4 ^ n2) as P2 by (apply pow_lt; lra). pose proof (Hdf z ltac:(lra)) as Z4.
    assert (0 <= - f z * df z) by (apply Rmult_le_pos; lra).
    assert (- f z * df z * 4 ^ n2 <= - f z * df z * (4 ^ n1 * 4 ^ n2)) by (apply Rmult_le_compat_l; nra).
    assert (- f z * df z <= tol * df r) as B by (apply Rmult_le_reg_r with (4 ^ n2); lra).
    assert (- f z * df r <= - f z * df z) by (apply Rmult_le_compat_l; lra).
    apply Rmult_le_reg_r with (df r); lra. }
  pose proof (Hs O) as H0. replace (x / 2 ^ 0) with x in H0 by (cbn; field). specialize (H0 Hx).
  destruct (Rlt_dec (x - f x / df x) 0) as [N|N].
  - destruct (Rlt_dec r (1 / 2 * x)) as [G|G].
    + apply (IH n2 del); auto.
      * cbn in Hn. lra.
      * intros k Hk. assert (1 / 2 * x / 2 ^ k = x / 2 ^ S k) as E by (cbn [pow]; field; apply pow_nonzero; lra).
        rewrite E in *. apply Hs. exact Hk.
    + apply Below. lra.
  - destruct H0 as [H0|H0]; [lra|]. apply Below. split; [exact H0|].
    pose proof (Htan x r ltac:(lra) Hr) as T. rewrite Hroot in T.
    apply Rmult_le_reg_l with (df x); [exact D|]. replace (df x * (x - f x / df x)) with (df x * x - f x) by (field; lra). lra.
Qed.

Lemma newton_above x0 m n1 n2 del : r < x0 -> x0 <= r * 2 ^ n1 -> (Z.of_nat (n1 + n2) = m)%Z -> 0 < del <= r / 2 ->
  (forall k, r < x0 / 2 ^ k -> x0 / 2 ^ k - f (x0 / 2 ^ k) / df (x0 / 2 ^ k) < 0 \/ del <= x0 / 2 ^ k - f (x0 / 2 ^ k) / df (x0 / 2 ^ k)) ->
  - f del * df del <= tol * df r * 4 ^ n2 ->
  exists x, NewtonIteration F DF x0 tol m = Returned x /\ 0 < x /\ Rabs (f x) <= tol.
Proof.
  intros H1 H2 <- H3 H4 H5. unfold NewtonIteration. rewrite Nat2Z.id.
  pose proof (loop_above n1 n2 del x0 H1 H2 H3 H4 H5) as L.
  destruct (newton_loop F DF tol (n1 + n2) x0 (F x0)) as [[y fy] k]. destruct L as (L1 & -> & L3).
  exists y. rewrite (HF y) by lra. pose proof (Rle_abs (f y)).
  replace (gt (Fin (f y)) tol) with false by (unfold gt; destruct (Rlt_dec tol (f y)); auto; lra).
  rewrite andb_false_r. auto.
Qed.
End Concave.
