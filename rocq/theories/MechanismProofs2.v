(** Rate coefficients: defined, not negative and bounded *)
From Coq Require Import String List ZArith NArith QArith Qreals Reals Lra Lia Bool.
From Verif Require Import MechanismModel MechanismSpec MechanismProofs.
Import ListNotations.
Local Open Scope R_scope.

(** ** Numbers *)
Fixpoint qpow (x : Q) (n : nat) : Q := match n with O => 1%Q | S k => (x * qpow x k)%Q end.
Lemma qpow_R x n : Q2R (qpow x n) = Q2R x ^ n.
Proof. induction n; cbn [qpow pow]; [apply RMicromega.Q2R_1|]. rewrite Q2R_mult, IHn. reflexivity. Qed.

(** a lower bound of x^64 with 40 binary digits *)
Definition trunc (x : Q) : Q := (Qnum x * 1099511627776 / Zpos (Qden x))%Z # 1099511627776.
Definition square (x : Q) : Q := trunc (x * x).
Definition low64 (x : Q) : Q := square (square (square (square (square (square (trunc x)))))).
Lemma trunc_le x : Q2R (trunc x) <= Q2R x.
Proof.
  apply Qle_Rle. unfold trunc, Qle. cbn [Qnum Qden]. pose proof (Z.mul_div_le (Qnum x * 1099511627776) (Zpos (Qden x)) (Pos2Z.is_pos _)). lia.
Qed.
Lemma trunc_nonneg x : 0 <= Q2R x -> 0 <= Q2R (trunc x).
Proof.
  intros H. rewrite <- RMicromega.Q2R_0 in H |- *. apply Rle_Qle in H. apply Qle_Rle. unfold trunc, Qle in *. cbn [Qnum Qden] in *.
  assert (0 <= Qnum x * 1099511627776 / Zpos (Qden x))%Z by (apply Z.div_pos; lia). lia.
Qed.
Lemma square_spec x r : 0 <= Q2R x <= r -> 0 <= Q2R (square x) <= r * r.
Proof.
  intros [A B]. unfold square. split; [apply trunc_nonneg; rewrite Q2R_mult; apply Rmult_le_pos; exact A|].
  eapply Rle_trans; [apply trunc_le|]. rewrite Q2R_mult. apply Rmult_le_compat; assumption.
Qed.
Lemma low64_spec x r : 0 <= r -> Q2R x = r -> 0 <= Q2R (low64 x) <= r ^ 64.
Proof.
  intros H E. assert (T : 0 <= Q2R (trunc x) <= r). { split; [apply trunc_nonneg; lra|rewrite <- E; apply trunc_le]. }
  unfold low64. do 6 apply square_spec in T. revert T. generalize (square (square (square (square (square (square (trunc x))))))). intros z [T1 T2].
  split; [exact T1|]. eapply Rle_trans; [exact T2|]. right. ring.
Qed.

Lemma exp_pow_n x n : (0 < n)%nat -> exp x = exp (x / INR n) ^ n.
Proof.
  intros H. assert (N : 0 < INR n) by (apply lt_0_INR; exact H).
  assert (E : forall m y, exp (INR m * y) = exp y ^ m).
  { induction m; intros y; [cbn; rewrite Rmult_0_l, exp_0; reflexivity|]. rewrite S_INR. cbn [pow].
    rewrite <- IHm, <- exp_plus. f_equal. ring. }
  rewrite <- E. f_equal. field. lra.
Qed.
Lemma exp_lower x n : (0 < n)%nat -> 0 <= 1 + x / INR n -> (1 + x / INR n) ^ n <= exp x.
Proof. intros H P. rewrite (exp_pow_n x n H). apply pow_incr. split; [exact P|apply exp_ineq1_le]. Qed.
Lemma exp_upper x n : (0 < n)%nat -> 0 < 1 - x / INR n -> exp x <= / (1 - x / INR n) ^ n.
Proof.
  intros H P. assert (L := exp_lower (- x) n H). rewrite exp_Ropp in L.
  replace (1 + - x / INR n) with (1 - x / INR n) in L by (unfold Rdiv; ring).
  assert (0 < (1 - x / INR n) ^ n) by (apply pow_lt; exact P).
  rewrite <- (Rinv_inv (exp x)). apply Rinv_le_contravar; [assumption|]. apply L. lra.
Qed.

Lemma Q2R_pos x : (0 < x)%Q -> 0 < Q2R x.
Proof. intros H. apply Qlt_Rlt in H. rewrite RMicromega.Q2R_0 in H. exact H. Qed.
Lemma Q2R_nonneg x : (0 <= x)%Q -> 0 <= Q2R x.
Proof. intros H. apply Qle_Rle in H. rewrite RMicromega.Q2R_0 in H. exact H. Qed.
Definition Qlt_bool (x y : Q) : bool := negb (Qle_bool y x).
Lemma Qlt_bool_lt x y : Qlt_bool x y = true -> (x < y)%Q.
Proof. unfold Qlt_bool. rewrite negb_true_iff. intros H. apply Qnot_le_lt. intros L. apply Qle_bool_iff in L. congruence. Qed.

(** ** Simple coefficients *)
Lemma arr_pos T a : (0 < pre a)%Q -> 0 < arr T a.
Proof. intros H. unfold arr. apply Rmult_lt_0_compat; [apply Q2R_pos; exact H|apply exp_pos]. Qed.

(** ** The broadening factor *)
Lemma scale_le w x : 0 < w -> x <= 1 -> w * x <= w.
Proof. intros. nra. Qed.
Definition term_upper (limited : bool) (t : fc_term) : option Q :=
  match t with
  | Decay w T0 => if Qlt_bool 0 w then
                    if Qlt_bool 0 T0 then Some w
                    else if limited && Qle_bool T0 (-4600) then Some (3 * w)%Q else None
                  else None
  | Grow w T0 => if Qlt_bool 0 w && Qle_bool 0 T0 then Some w else None
  end.
Fixpoint fc_upper (limited : bool) (l : list fc_term) : option Q :=
  match l with
  | [] => Some 0%Q
  | t :: rest => match term_upper limited t, fc_upper limited rest with Some a, Some b => Some (a + b)%Q | _, _ => None end
  end.

Lemma exp_le_1 x : x <= 0 -> exp x <= 1.
Proof. intros [H| ->]; [|rewrite exp_0; lra]. rewrite <- exp_0. left. apply exp_increasing. exact H. Qed.

Lemma div_nonpos a b : 0 <= a -> 0 < b -> - a / b <= 0.
Proof. intros A B. unfold Rdiv. assert (0 < / b) by (apply Rinv_0_lt_compat; exact B). nra. Qed.

Lemma term_upper_spec limited t a T : term_upper limited t = Some a -> 0 < T -> (limited = true -> T <= 4600) ->
  0 < fc_value T t <= Q2R a.
Proof.
  intros H P L. destruct t as [w T0 | w T0]; cbn in H |- *.
  - destruct (Qlt_bool 0 w) eqn:W; [|discriminate]. apply Qlt_bool_lt, Q2R_pos in W.
    split; [apply Rmult_lt_0_compat; [exact W|apply exp_pos]|].
    destruct (Qlt_bool 0 T0) eqn:E.
    + injection H as <-. apply Qlt_bool_lt, Q2R_pos in E. apply scale_le; [exact W|]. exact (exp_le_1 _ (div_nonpos T (Q2R T0) (Rlt_le _ _ P) E)).
    + destruct limited; [|discriminate]. cbn in H. destruct (Qle_bool T0 (-4600)) eqn:F; [|discriminate]. injection H as <-.
      apply Qle_bool_iff, Qle_Rle in F. specialize (L eq_refl).
      assert (F' : Q2R T0 <= -4600) by (unfold Q2R at 2 in F; cbn in F; lra). clear F.
      assert (- T / Q2R T0 <= 1).
      { replace (- T / Q2R T0) with (T / - Q2R T0) by (field; lra). apply Rmult_le_reg_r with (- Q2R T0); [lra|].
        unfold Rdiv. rewrite Rmult_assoc, Rinv_l by lra. lra. }
      assert (exp (- T / Q2R T0) <= 3).
      { apply Rle_trans with (exp 1); [|exact exp_le_3]. destruct H; [left; apply exp_increasing; assumption|rewrite H; lra]. }
      rewrite Q2R_mult. replace (Q2R 3) with 3 by (unfold Q2R; cbn; lra). nra.
  - destruct (Qlt_bool 0 w) eqn:W; [|discriminate]. cbn in H. destruct (Qle_bool 0 T0) eqn:E; [|discriminate]. injection H as <-.
    apply Qlt_bool_lt, Q2R_pos in W. apply Qle_bool_iff, Q2R_nonneg in E.
    split; [apply Rmult_lt_0_compat; [exact W|apply exp_pos]|]. apply scale_le; [exact W|]. exact (exp_le_1 _ (div_nonpos (Q2R T0) T E P)).
Qed.

Lemma fc_upper_spec limited l a T : fc_upper limited l = Some a -> l <> [] -> 0 < T -> (limited = true -> T <= 4600) ->
  0 < fcTroe T l <= Q2R a.
Proof.
  intros H N P L. assert (G : forall l a, fc_upper limited l = Some a -> 0 <= fcTroe T l <= Q2R a /\ (l <> [] -> 0 < fcTroe T l)).
  { clear l a H N. induction l as [|t l IH]; intros a H; cbn in H.
    - injection H as <-. cbn. rewrite RMicromega.Q2R_0. split; [lra|tauto].
    - destruct (term_upper limited t) eqn:E; [|discriminate]. destruct (fc_upper limited l) eqn:F; [|discriminate]. injection H as <-.
      destruct (term_upper_spec _ _ _ _ E P L). destruct (IH _ eq_refl) as [B _]. rewrite Q2R_plus. change (fcTroe T (t :: l)) with (fc_value T t + fcTroe T l). split; [lra|intros; lra]. }
  destruct (G _ _ H). split; [auto|lra].
Qed.

(** The broadening factors of the Aramco mechanisms with negative weights or temperatures *)
Definition special_a : list fc_term := [Decay (830238591305751 # 562949953421312) (35580 # 1); Decay (-4276618206151023 # 9007199254740992) (1116 # 1); Grow (1 # 1) (9023 # 1)].
Definition special_b : list fc_term := [Decay (-869757678035927 # 562949953421312) (3290 # 1); Decay (1432707631457239 # 562949953421312) (47320 # 1); Grow (1 # 1) (47110 # 1)].
Definition special_c : list fc_term := [Decay (2635661313174405 # 35184372088832) (37050 # 1); Decay (-2600476941085573 # 35184372088832) (41500 # 1); Grow (1 # 1) (5220 # 1)].
Definition special_d : list fc_term := [Decay (1766536953836077 # 1125899906842624) (299 # 1); Decay (-640637046993453 # 1125899906842624) (-9147 # 1); Grow (1 # 1) (5362098306337997 # 35184372088832)].

Definition q_same (x y : Q) : bool := Z.eqb (Qnum x) (Qnum y) && Pos.eqb (Qden x) (Qden y).
Lemma q_same_eq x y : q_same x y = true -> x = y.
Proof. destruct x, y. unfold q_same. cbn. rewrite andb_true_iff, Z.eqb_eq, Pos.eqb_eq. intros [-> ->]. reflexivity. Qed.
Definition term_same (a b : fc_term) : bool :=
  match a, b with
  | Decay w t, Decay w' t' | Grow w t, Grow w' t' => q_same w w' && q_same t t'
  | _, _ => false
  end.
Fixpoint terms_same (a b : list fc_term) : bool :=
  match a, b with [], [] => true | x :: a', y :: b' => term_same x y && terms_same a' b' | _, _ => false end.
Lemma terms_same_eq a b : terms_same a b = true -> a = b.
Proof.
  revert b. induction a as [|x a IH]; intros [|y b]; cbn; try discriminate; [reflexivity|]. rewrite andb_true_iff. intros [A B].
  rewrite (IH b B). f_equal. destruct x, y; cbn in A; try discriminate; apply andb_true_iff in A; destruct A as [A1 A2];
    apply q_same_eq in A1; apply q_same_eq in A2; subst; reflexivity.
Qed.

Definition is_special (l : list fc_term) : bool :=
  terms_same l special_a || terms_same l special_b || terms_same l special_c || terms_same l special_d.

Definition fc_fine (limited : bool) (l : list fc_term) : bool :=
  match l with
  | [] => false
  | _ => match fc_upper limited l with Some a => Qle_bool a (38 # 10) | None => limited && is_special l end
  end.

(** *** A and B: the positive term decays more slowly *)
Lemma pair_pos w1 w2 t1 t2 T : 0 <= w2 -> w2 < w1 -> 0 < t2 <= t1 -> 0 < T -> 0 < w1 * exp (- T / t1) - w2 * exp (- T / t2).
Proof.
  intros A B [C D] E. assert (exp (- T / t2) <= exp (- T / t1)).
  { assert (- T / t2 <= - T / t1) as [F|F].
    { unfold Rdiv. assert (/ t1 <= / t2) by (apply Rinv_le_contravar; lra). nra. }
    - left. apply exp_increasing. exact F.
    - rewrite F. lra. }
  pose proof (exp_pos (- T / t1)). nra.
Qed.

Lemma fc3 T w1 t1 w2 t2 w3 t3 : fcTroe T [Decay w1 t1; Decay w2 t2; Grow w3 t3] =
  Q2R w1 * exp (- T / Q2R t1) + Q2R w2 * exp (- T / Q2R t2) + Q2R w3 * exp (- Q2R t3 / T).
Proof. unfold fcTroe, fc_value. cbn [fold_right]. ring. Qed.

Lemma grow_bounds T t : 0 < T -> 0 <= t -> 0 < exp (- t / T) <= 1.
Proof. intros. split; [apply exp_pos|apply exp_le_1, div_nonpos; lra]. Qed.

Ltac qr := unfold Q2R; cbn [Qnum Qden]; lra.
Ltac name_q x := let v := fresh "q" in set (v := Q2R x) in *.

Lemma special_a_spec T : 0 < T -> 0 < fcTroe T special_a <= 3.8.
Proof.
  intros P. unfold special_a. rewrite fc3.
  assert (A : 1.47 < Q2R (830238591305751 # 562949953421312) < 1.48) by qr.
  assert (B : -0.48 < Q2R (-4276618206151023 # 9007199254740992) < -0.47) by qr.
  assert (C : Q2R (1 # 1) = 1) by qr. assert (D : Q2R (35580 # 1) = 35580) by qr. assert (E : Q2R (1116 # 1) = 1116) by qr.
  assert (F : Q2R (9023 # 1) = 9023) by qr. rewrite C, D, E, F.
  pose proof (grow_bounds T 9023 P ltac:(lra)). 
  pose proof (pair_pos (Q2R (830238591305751 # 562949953421312)) (- Q2R (-4276618206151023 # 9007199254740992)) 35580 1116 T ltac:(lra) ltac:(lra) ltac:(lra) P).
  pose proof (grow_bounds 35580 T ltac:(lra) ltac:(lra)). pose proof (exp_pos (- T / 1116)).
  revert A B H H0 H1 H2. generalize (Q2R (830238591305751 # 562949953421312)) (Q2R (-4276618206151023 # 9007199254740992)). intros. nra.
Qed.

Lemma special_b_spec T : 0 < T -> 0 < fcTroe T special_b <= 3.8.
Proof.
  intros P. unfold special_b. rewrite fc3.
  assert (A : -1.55 < Q2R (-869757678035927 # 562949953421312) < -1.54) by qr.
  assert (B : 2.54 < Q2R (1432707631457239 # 562949953421312) < 2.55) by qr.
  assert (C : Q2R (1 # 1) = 1) by qr. assert (D : Q2R (3290 # 1) = 3290) by qr. assert (E : Q2R (47320 # 1) = 47320) by qr.
  assert (F : Q2R (47110 # 1) = 47110) by qr. rewrite C, D, E, F.
  pose proof (grow_bounds T 47110 P ltac:(lra)).
  pose proof (pair_pos (Q2R (1432707631457239 # 562949953421312)) (- Q2R (-869757678035927 # 562949953421312)) 47320 3290 T ltac:(lra) ltac:(lra) ltac:(lra) P).
  pose proof (grow_bounds 47320 T ltac:(lra) ltac:(lra)). pose proof (exp_pos (- T / 3290)).
  revert A B H H0 H1 H2. generalize (Q2R (-869757678035927 # 562949953421312)) (Q2R (1432707631457239 # 562949953421312)). intros. nra.
Qed.

(** *** C: the difference of two large terms *)
Lemma special_c_spec T : 0 < T <= 4600 -> 0 < fcTroe T special_c <= 3.8.
Proof.
  intros [P L]. unfold special_c. rewrite fc3.
  set (u := Q2R (2635661313174405 # 35184372088832)). set (v := Q2R (-2600476941085573 # 35184372088832)).
  assert (A : 74.9 < u < 74.92) by (unfold u; qr).
  assert (B : u + v = 1) by (unfold u, v; qr).
  assert (C : Q2R (1 # 1) = 1) by qr. assert (D : Q2R (37050 # 1) = 37050) by qr. assert (E : Q2R (41500 # 1) = 41500) by qr.
  assert (F : Q2R (5220 # 1) = 5220) by qr. rewrite C, D, E, F. clearbody u v.
  pose proof (grow_bounds T 5220 P ltac:(lra)) as G. pose proof (grow_bounds 41500 T ltac:(lra) ltac:(lra)) as H.
  replace (- T / 37050) with (- T / 41500 + - (T * (1 / 37050 - 1 / 41500))) by field. rewrite exp_plus.
  pose proof (exp_ineq1_le (- (T * (1 / 37050 - 1 / 41500)))) as K. 
  pose proof (exp_le_1 (- (T * (1 / 37050 - 1 / 41500))) ltac:(lra)) as K2.
  set (s := exp (- (T * (1 / 37050 - 1 / 41500)))) in *. set (r := exp (- T / 41500)) in *. set (g := exp (- (5220) / T)) in *.
  assert (K3 : 1 - 0.00000289418 * 4600 <= s) by lra. clearbody s r g. replace v with (1 - u) by lra. clear B.
  assert (0 < u * s + (1 - u)) by nra. assert (u * s + (1 - u) <= 1) by nra.
  replace (u * (r * s) + (1 - u) * r + 1 * g) with (r * (u * s + (1 - u)) + g) by ring. nra.
Qed.

(** *** D: subdivision of the temperatures *)
Definition d_piece (a b : Q) : bool :=
  (* 1.569 exp(- b / 299) + exp(- 152.4 / a) > 0.569 exp(b / 9147) with (1 - x / 64)^64 <= exp(-x) *)
  let y := low64 (1 - b / (9147 * 64)) in
  let e1 := if Qle_bool b 2000 then low64 (1 - b / (299 * 64)) else 0%Q in
  let e2 := if Qle_bool 100 a then low64 (1 - (5362098306337997 # 35184372088832) / (a * 64)) else 0%Q in
  Qlt_bool ((640637046993453 # 1125899906842624)) (((1766536953836077 # 1125899906842624) * e1 + e2) * y) && Qle_bool b 4600 && Qlt_bool 0 b && Qlt_bool 0 y.

Lemma Q2R_64 : Q2R 64 = 64. Proof. qr. Qed.

Lemma d_piece_spec a b T : d_piece a b = true -> 0 < T -> (0 <= a)%Q -> Q2R a <= T <= Q2R b -> 0 < fcTroe T special_d.
Proof.
  unfold d_piece. rewrite !andb_true_iff. intros [[[H H2] H3] H4] P Pa [L1 L2]. apply Qlt_bool_lt, Qlt_Rlt in H. apply Qle_bool_iff, Qle_Rle in H2.
  apply Qlt_bool_lt, Q2R_pos in H3. apply Qlt_bool_lt, Q2R_pos in H4.
  assert (B46 : Q2R b <= 4600) by (replace (Q2R 4600) with 4600 in H2 by qr; exact H2). clear H2.
  rewrite Q2R_mult, Q2R_plus, Q2R_mult in H. unfold special_d. rewrite fc3.
  set (u := Q2R (1766536953836077 # 1125899906842624)) in *.
  assert (V : Q2R (-640637046993453 # 1125899906842624) = - Q2R (640637046993453 # 1125899906842624)) by qr. rewrite V.
  set (v := Q2R (640637046993453 # 1125899906842624)) in *.
  assert (C : Q2R (1 # 1) = 1) by qr. assert (D : Q2R (299 # 1) = 299) by qr. assert (E : Q2R (-9147 # 1) = - (9147)) by qr.
  rewrite C, D, E. set (g := Q2R (5362098306337997 # 35184372088832)) in *.
  assert (G : 152 < g < 153) by (unfold g; qr). assert (U : 1.5 < u < 1.6) by (unfold u; qr). assert (W : 0.5 < v < 0.6) by (unfold v; qr).
  assert (I64 : INR 64 = 64) by (cbn; lra).
  (* y *)
  assert (Y1 : 0 < Q2R (low64 (1 - b / (9147 * 64))) /\ exp (T / 9147) * Q2R (low64 (1 - b / (9147 * 64))) <= 1).
  { split; [exact H4|]. assert (E9 : Q2R (1 - b / (9147 * 64)) = 1 - Q2R b / 9147 / 64).
    { unfold Qdiv. rewrite Q2R_minus, Q2R_mult, RMicromega.Q2R_1, Q2R_inv by (cbn; unfold Qeq; cbn; lia). rewrite Q2R_mult, Q2R_64.
      replace (Q2R 9147) with 9147 by qr. field. }
    assert (Z0 : 0 < 1 - Q2R b / 9147 / 64) by lra. pose proof (low64_spec _ _ (Rlt_le _ _ Z0) E9) as LW. clear H4 H.
    pose proof (exp_upper (Q2R b / 9147) 64 ltac:(lia)) as X. rewrite I64 in X. specialize (X Z0).
    assert (PW : 0 < (1 - Q2R b / 9147 / 64) ^ 64) by (apply pow_lt; exact Z0). revert X PW LW. generalize ((1 - Q2R b / 9147 / 64) ^ 64). intros pw X PW LW.
    assert (exp (T / 9147) <= exp (Q2R b / 9147)) as M by (destruct (Req_dec T (Q2R b)) as [->|N]; [lra|left; apply exp_increasing; lra]).
    apply Rle_trans with (/ pw * pw); [|rewrite Rinv_l; lra]. apply Rmult_le_compat; [left; apply exp_pos|apply LW|lra|apply LW]. }
  set (y := Q2R (low64 (1 - b / (9147 * 64)))) in *.
  (* e1 *)
  assert (X1 : Q2R (if Qle_bool b 2000 then low64 (1 - b / (299 * 64)) else 0%Q) <= exp (- T / 299)).
  { destruct (Qle_bool b 2000) eqn:B2; [|rewrite RMicromega.Q2R_0; left; apply exp_pos].
    apply Qle_bool_iff, Qle_Rle in B2. replace (Q2R 2000) with 2000 in B2 by qr.
    assert (E9 : Q2R (1 - b / (299 * 64)) = 1 + - Q2R b / 299 / 64).
    { unfold Qdiv. rewrite Q2R_minus, Q2R_mult, RMicromega.Q2R_1, Q2R_inv by (cbn; unfold Qeq; cbn; lia). rewrite Q2R_mult, Q2R_64.
      replace (Q2R 299) with 299 by qr. field. }
    assert (X0 : 0 <= 1 + - Q2R b / 299 / 64) by lra. apply Rle_trans with ((1 + - Q2R b / 299 / 64) ^ 64); [apply (low64_spec _ _ X0 E9)|].
    pose proof (exp_lower (- Q2R b / 299) 64 ltac:(lia)) as X. rewrite I64 in X. specialize (X X0).
    eapply Rle_trans; [exact X|]. clear X. destruct (Req_dec T (Q2R b)) as [->|N]; [apply Rle_refl|left; apply exp_increasing; lra]. }
  (* e2 *)
  assert (X2 : Q2R (if Qle_bool 100 a then low64 (1 - (5362098306337997 # 35184372088832) / (a * 64)) else 0%Q) <= exp (- g / T)).
  { destruct (Qle_bool 100 a) eqn:A2; [|rewrite RMicromega.Q2R_0; left; apply exp_pos].
    apply Qle_bool_iff in A2. assert (Na : ~ (a == 0)%Q) by (intros Z0; rewrite Z0 in A2; apply Qle_bool_iff in A2; vm_compute in A2; discriminate).
    apply Qle_Rle in A2. replace (Q2R 100) with 100 in A2 by qr.
    assert (Na' : ~ (a * 64 == 0)%Q). { intros Z0. apply Qmult_integral in Z0. destruct Z0 as [Z0|Z0]; [contradiction|discriminate]. }
    assert (E9 : Q2R (1 - (5362098306337997 # 35184372088832) / (a * 64)) = 1 + - g / Q2R a / 64).
    { unfold Qdiv. rewrite Q2R_minus, Q2R_mult, RMicromega.Q2R_1, Q2R_inv by exact Na'. rewrite Q2R_mult, Q2R_64. fold g. field. lra. }
    assert (Ga : g / Q2R a <= 2). { apply Rmult_le_reg_r with (Q2R a); [lra|]. unfold Rdiv. rewrite Rmult_assoc, Rinv_l by lra. lra. }
    assert (0 <= 1 + - g / Q2R a / 64) as X0.
    { replace (- g / Q2R a) with (- (g / Q2R a)) by (unfold Rdiv; ring). lra. }
    apply Rle_trans with ((1 + - g / Q2R a / 64) ^ 64); [apply (low64_spec _ _ X0 E9)|].
    pose proof (exp_lower (- g / Q2R a) 64 ltac:(lia)) as X. rewrite I64 in X.
    specialize (X X0). eapply Rle_trans; [exact X|]. clear X.
    assert (- g / Q2R a <= - g / T) as [N|N].
    { unfold Rdiv. assert (/ T <= / Q2R a) by (apply Rinv_le_contravar; lra). nra. }
    - left. apply exp_increasing. exact N.
    - rewrite N. apply Rle_refl. }
  set (e1 := Q2R (if Qle_bool b 2000 then _ else _)) in *. set (e2 := Q2R (if Qle_bool 100 a then _ else _)) in *.
  replace (- T / - (9147)) with (T / 9147) by field.
  destruct Y1 as [Y1 Y2]. pose proof (exp_pos (T / 9147)). pose proof (exp_pos (- T / 299)). pose proof (exp_pos (- g / T)).
  set (x1 := exp (- T / 299)) in *. set (x2 := exp (- g / T)) in *. set (x3 := exp (T / 9147)) in *.
  clearbody x1 x2 x3 e1 e2 y u v g. clear - H X1 X2 Y1 Y2 U W H0.
  assert (v * x3 * y <= v) by nra. assert (u * e1 <= u * x1) by (apply Rmult_le_compat_l; lra).
  assert ((u * e1 + e2) * y <= (u * x1 + x2) * y) by (apply Rmult_le_compat_r; lra).
  apply Rmult_lt_reg_r with y; [exact Y1|]. lra.
Qed.

Lemma special_d_spec T : 0 < T <= 4600 -> 0 < fcTroe T special_d <= 3.8.
Proof.
  intros [P L]. split.
  - assert (forall a b, d_piece a b = true -> (0 <= a)%Q -> Q2R a <= T <= Q2R b -> 0 < fcTroe T special_d) as K.
    { intros a b H1 H2 H3. exact (d_piece_spec a b T H1 P H2 H3). }
    destruct (Rle_dec T 200); [apply (K 0%Q 200%Q); [vm_compute; reflexivity|discriminate|qr]|].
    destruct (Rle_dec T 400); [apply (K 200%Q 400%Q); [vm_compute; reflexivity|discriminate|qr]|].
    destruct (Rle_dec T 1000); [apply (K 400%Q 1000%Q); [vm_compute; reflexivity|discriminate|qr]|].
    destruct (Rle_dec T 3000); [apply (K 1000%Q 3000%Q); [vm_compute; reflexivity|discriminate|qr]|].
    destruct (Rle_dec T 4000); [apply (K 3000%Q 4000%Q); [vm_compute; reflexivity|discriminate|qr]|].
    apply (K 4000%Q 4600%Q); [vm_compute; reflexivity|discriminate|qr].
  - unfold special_d. rewrite fc3. assert (A : Q2R (1766536953836077 # 1125899906842624) < 1.6) by qr.
    assert (A0 : 0 < Q2R (1766536953836077 # 1125899906842624)) by qr.
    assert (B : Q2R (-640637046993453 # 1125899906842624) < 0) by qr. assert (C : Q2R (1 # 1) = 1) by qr. rewrite C.
    assert (G : 0 < Q2R (5362098306337997 # 35184372088832)) by qr. pose proof (grow_bounds T _ P (Rlt_le _ _ G)).
    assert (D : Q2R (299 # 1) = 299) by qr. rewrite D. pose proof (grow_bounds 299 T ltac:(lra) ltac:(lra)).
    pose proof (exp_pos (- T / Q2R (-9147 # 1))). revert A A0 B H H0 H1.
    generalize (exp (- T / Q2R (-9147 # 1))) (exp (- T / 299)) (Q2R (1766536953836077 # 1125899906842624)) (Q2R (-640637046993453 # 1125899906842624)) (exp (- Q2R (5362098306337997 # 35184372088832) / T)).
    intros. nra.
Qed.

Lemma fc_fine_spec limited l T : fc_fine limited l = true -> 0 < T -> (limited = true -> T <= 4600) -> 0 < fcTroe T l <= 3.8.
Proof.
  intros H P L. unfold fc_fine in H. destruct l as [|t l]; [discriminate|]. destruct (fc_upper limited (t :: l)) eqn:E.
  - apply Qle_bool_iff, Qle_Rle in H.
    pose proof (fc_upper_spec limited _ _ T E ltac:(discriminate) P L). lra.
  - destruct limited; [|discriminate]. cbn [andb] in H. specialize (L eq_refl). unfold is_special in H. rewrite !orb_true_iff in H.
    destruct H as [[[H|H]|H]|H]; apply terms_same_eq in H; rewrite H.
    + apply special_a_spec; exact P.
    + apply special_b_spec; exact P.
    + apply special_c_spec; lra.
    + apply special_d_spec; lra.
Qed.
