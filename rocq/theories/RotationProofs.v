(** Lemmas for C35. *)
From Coq Require Import List Reals Lra.
From Verif Require Import GasModel GasSpec.
Import ListNotations.
Local Open Scope R_scope.

Lemma opposite2_spec a b : opposite2 a b = true <-> list2 a = map Ropp (list2 b).
Proof.
  destruct a as [a0 a1], b as [b0 b1]. cbn. destruct (Req_EM_T a0 (- b0)), (Req_EM_T a1 (- b1)); split; intros H; try congruence; injection H; intros; lra.
Qed.

Lemma opposite3_spec a b : opposite3 a b = true <-> list3 a = map Ropp (list3 b).
Proof.
  destruct a as [[a0 a1] a2], b as [[b0 b1] b2]. cbn.
  destruct (Req_EM_T a0 (- b0)), (Req_EM_T a1 (- b1)), (Req_EM_T a2 (- b2)); split; intros H; try congruence; injection H; intros; lra.
Qed.

(** [x = y] follows from [p = 0] when x - y is a multiple of p. *)
Lemma by_multiple (k p x y : R) : p = 0 -> x - y = k * p -> x = y.
Proof. intros H E. rewrite H in E. lra. Qed.

Lemma rotation2 a b : unit (list2 a) -> unit (list2 b) ->
  let M := MakeRotation2 a b in
  mat_vec (rows2 M) (list2 a) = list2 b /\
  mul_rows (rows2 M) (rows2 M) = identity2 /\ det2 M = 1 /\
  (forall x y, mat_vec (rows2 (MakeRotation2 b a)) (mat_vec (rows2 M) [x; y]) = [x; y]).
Proof.
  intros Ha Hb M. unfold M, MakeRotation2.
  assert (Eo : opposite2 b a = opposite2 a b).
  { apply Bool.eq_true_iff_eq. rewrite !opposite2_spec. destruct a, b; cbn. split; intros H; injection H; intros; subst; f_equal; try lra; f_equal; lra. }
  rewrite Eo. destruct (opposite2 a b) eqn:E.
  - apply opposite2_spec in E. destruct a as [a0 a1], b as [b0 b1]. cbn in *. injection E as -> ->.
    unfold mat_vec, mul_rows, identity2. cbn. split; [repeat (f_equal; try lra)|]. split; [repeat (f_equal; try lra)|]. split; [lra|].
    intros; repeat (f_equal; try lra).
  - clear E Eo. destruct a as [a0 a1], b as [b0 b1]. unfold unit in *. cbn in Ha, Hb.
    assert (A : a0 * a0 + a1 * a1 - 1 = 0) by lra. assert (B : b0 * b0 + b1 * b1 - 1 = 0) by lra.
    assert (N : (a0 * a0 + a1 * a1) * (b0 * b0 + b1 * b1) - 1 = 0).
    { replace (a0 * a0 + a1 * a1) with 1 by lra. replace (b0 * b0 + b1 * b1) with 1 by lra. ring. }
    unfold mat_vec, mul_rows, identity2. cbn.
    split; [|split; [|split]].
    + f_equal; [|f_equal]; [apply (by_multiple b0 _ _ _ A); ring | apply (by_multiple b1 _ _ _ A); ring].
    + f_equal; [f_equal; [|f_equal]|f_equal; f_equal; [|f_equal]]; try ring; apply (by_multiple 1 _ _ _ N); ring.
    + apply (by_multiple 1 _ _ _ N); ring.
    + intros x y. f_equal; [|f_equal]; [apply (by_multiple x _ _ _ N); ring | apply (by_multiple y _ _ _ N); ring].
Qed.

(** The matrix I + K + e K^2 for the cross product matrix K of v. *)
Definition rodrigues (v0 v1 v2 e : R) : mat3 :=
  (1 + (- (v2 * v2) - v1 * v1) * e, - v2 + v1 * v0 * e, v1 + v2 * v0 * e,
   (v2 + v0 * v1 * e, 1 + (- (v2 * v2) - v0 * v0) * e, - v0 + v2 * v1 * e),
   (- v1 + v0 * v2 * e, v0 + v1 * v2 * e, 1 + (- (v1 * v1) - v0 * v0) * e)).

Lemma rodrigues_orthogonal v0 v1 v2 e : e * e * (v0 * v0 + v1 * v1 + v2 * v2) - 2 * e + 1 = 0 ->
  let M := rodrigues v0 v1 v2 e in
  mul_rows (rows3 M) (rows3 M) = identity3 /\ det3 M = 1 /\
  (forall x y z, mat_vec (rows3 (rodrigues (- v0) (- v1) (- v2) e)) (mat_vec (rows3 M) [x; y; z]) = [x; y; z]).
Proof.
  intros H M. unfold M, rodrigues, mul_rows, mat_vec, identity3. cbn [rows3 map dot]. split; [|split].
  - set (k00 := - (v2 * v2) - v1 * v1). set (k11 := - (v2 * v2) - v0 * v0). set (k22 := - (v1 * v1) - v0 * v0).
    f_equal; [f_equal; [|f_equal; [|f_equal]]|f_equal; [f_equal; [|f_equal; [|f_equal]]|f_equal; f_equal; [|f_equal; [|f_equal]]]].
    + apply (by_multiple (- k00) _ _ _ H); unfold k00; ring.
    + apply (by_multiple (- (v0 * v1)) _ _ _ H); unfold k00, k11; ring.
    + apply (by_multiple (- (v0 * v2)) _ _ _ H); unfold k00, k22; ring.
    + apply (by_multiple (- (v0 * v1)) _ _ _ H); unfold k00, k11; ring.
    + apply (by_multiple (- k11) _ _ _ H); unfold k11; ring.
    + apply (by_multiple (- (v1 * v2)) _ _ _ H); unfold k11, k22; ring.
    + apply (by_multiple (- (v0 * v2)) _ _ _ H); unfold k00, k22; ring.
    + apply (by_multiple (- (v1 * v2)) _ _ _ H); unfold k11, k22; ring.
    + apply (by_multiple (- k22) _ _ _ H); unfold k22; ring.
  - cbn [det3]. apply (by_multiple (v0 * v0 + v1 * v1 + v2 * v2) _ _ _ H). ring.
  - intros x y z. f_equal; [|f_equal; [|f_equal]].
    + apply (by_multiple (- ((- (v2 * v2) - v1 * v1) * x + v0 * v1 * y + v0 * v2 * z)) _ _ _ H). ring.
    + apply (by_multiple (- (v0 * v1 * x + (- (v2 * v2) - v0 * v0) * y + v1 * v2 * z)) _ _ _ H). ring.
    + apply (by_multiple (- (v0 * v2 * x + v1 * v2 * y + (- (v1 * v1) - v0 * v0) * z)) _ _ _ H). ring.
Qed.
Lemma unit_opposite3 a0 a1 a2 b0 b1 b2 :
  a0 * a0 + a1 * a1 + a2 * a2 = 1 -> b0 * b0 + b1 * b1 + b2 * b2 = 1 -> 1 + (a0 * b0 + a1 * b1 + a2 * b2) = 0 ->
  a0 = - b0 /\ a1 = - b1 /\ a2 = - b2.
Proof.
  intros A B C.
  assert (S : (a0 + b0) * (a0 + b0) + (a1 + b1) * (a1 + b1) + (a2 + b2) * (a2 + b2) = 0) by lra.
  pose proof (Rle_0_sqr (a0 + b0)). pose proof (Rle_0_sqr (a1 + b1)). pose proof (Rle_0_sqr (a2 + b2)). unfold Rsqr in *.
  assert (E0 : (a0 + b0) * (a0 + b0) = 0) by lra. assert (E1 : (a1 + b1) * (a1 + b1) = 0) by lra.
  assert (E2 : (a2 + b2) * (a2 + b2) = 0) by lra.
  apply Rmult_integral in E0. apply Rmult_integral in E1. apply Rmult_integral in E2. lra.
Qed.

Lemma rotation3 a b : unit (list3 a) -> unit (list3 b) -> list3 a <> map Ropp (list3 b) ->
  let M := MakeRotation3 a b in
  mat_vec (rows3 M) (list3 a) = list3 b /\
  mul_rows (rows3 M) (rows3 M) = identity3 /\ det3 M = 1 /\
  (forall x y z, mat_vec (rows3 (MakeRotation3 b a)) (mat_vec (rows3 M) [x; y; z]) = [x; y; z]).
Proof.
  intros Ha Hb Hne M. unfold M, MakeRotation3.
  assert (Eab : opposite3 a b = false) by (apply Bool.not_true_is_false; rewrite opposite3_spec; auto).
  assert (Eba : opposite3 b a = false).
  { apply Bool.not_true_is_false. rewrite opposite3_spec. intros H. apply Hne. rewrite H. rewrite map_map.
    rewrite <- (map_id (list3 a)) at 1. apply map_ext. intros; lra. }
  rewrite Eab, Eba. destruct a as [[a0 a1] a2], b as [[b0 b1] b2]. unfold unit in *. cbn in Ha, Hb, Hne.
  assert (A : a0 * a0 + a1 * a1 + a2 * a2 - 1 = 0) by lra. assert (B : b0 * b0 + b1 * b1 + b2 * b2 - 1 = 0) by lra.
  assert (D : 1 + (a0 * b0 + a1 * b1 + a2 * b2) <> 0).
  { intros E. destruct (unit_opposite3 a0 a1 a2 b0 b1 b2) as (-> & -> & ->); try lra. apply Hne. reflexivity. }
  cbv zeta. unfold Rdiv. set (v0 := a1 * b2 - a2 * b1). set (v1 := a2 * b0 - a0 * b2). set (v2 := a0 * b1 - a1 * b0).
  set (c := a0 * b0 + a1 * b1 + a2 * b2) in *.
  assert (V : v0 * v0 + v1 * v1 + v2 * v2 = (1 + c) * (1 - c)).
  { assert (L : v0 * v0 + v1 * v1 + v2 * v2 + c * c = (a0 * a0 + a1 * a1 + a2 * a2) * (b0 * b0 + b1 * b1 + b2 * b2)) by (unfold v0, v1, v2, c; ring).
    replace (a0 * a0 + a1 * a1 + a2 * a2) with 1 in L by lra. replace (b0 * b0 + b1 * b1 + b2 * b2) with 1 in L by lra. lra. }
  set (e := / (1 + c)). assert (Ee : e * (1 + c) = 1) by (unfold e; field; auto).
  assert (K : e * e * (v0 * v0 + v1 * v1 + v2 * v2) - 2 * e + 1 = 0).
  { rewrite V. replace (e * e * ((1 + c) * (1 - c))) with (e * (1 + c) * (e * (1 - c))) by ring. rewrite Ee. lra. }
  destruct (rodrigues_orthogonal v0 v1 v2 e K) as (O1 & O2 & O3). split.
  - (* M a = b *)
    assert (Ec : e * (v0 * v0 + v1 * v1 + v2 * v2) = 1 - c) by (rewrite V; rewrite <- Rmult_assoc, Ee; ring).
    assert (X0 : v1 * a2 - v2 * a1 = b0 - c * a0) by (apply (by_multiple b0 _ _ _ A); unfold v1, v2, c; ring).
    assert (X1 : v2 * a0 - v0 * a2 = b1 - c * a1) by (apply (by_multiple b1 _ _ _ A); unfold v0, v2, c; ring).
    assert (X2 : v0 * a1 - v1 * a0 = b2 - c * a2) by (apply (by_multiple b2 _ _ _ A); unfold v0, v1, c; ring).
    assert (P : v0 * a0 + v1 * a1 + v2 * a2 = 0) by (unfold v0, v1, v2; ring).
    clearbody v0 v1 v2 c e. unfold mat_vec. cbn [rows3 map dot list3].
    f_equal; [|f_equal; [|f_equal]].
    + transitivity (a0 + (v1 * a2 - v2 * a1) + e * v0 * (v0 * a0 + v1 * a1 + v2 * a2) - e * (v0 * v0 + v1 * v1 + v2 * v2) * a0); [ring|].
      rewrite X0, P, Ec. ring.
    + transitivity (a1 + (v2 * a0 - v0 * a2) + e * v1 * (v0 * a0 + v1 * a1 + v2 * a2) - e * (v0 * v0 + v1 * v1 + v2 * v2) * a1); [ring|].
      rewrite X1, P, Ec. ring.
    + transitivity (a2 + (v0 * a1 - v1 * a0) + e * v2 * (v0 * a0 + v1 * a1 + v2 * a2) - e * (v0 * v0 + v1 * v1 + v2 * v2) * a2); [ring|].
      rewrite X2, P, Ec. ring.
  - split; [exact O1|]. split; [exact O2|]. intros x y z. rewrite <- (O3 x y z) at 2. unfold rodrigues, mat_vec. cbn [rows3 map].
    replace (b1 * a2 - b2 * a1) with (- v0) by (unfold v0; ring). replace (b2 * a0 - b0 * a2) with (- v1) by (unfold v1; ring).
    replace (b0 * a1 - b1 * a0) with (- v2) by (unfold v2; ring). replace (b0 * a0 + b1 * a1 + b2 * a2) with c by (unfold c; ring).
    fold e. reflexivity.
Qed.
