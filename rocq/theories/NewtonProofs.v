(** Lemmas for C38. *)
From Coq Require Import Reals ZArith Bool Lra Lia.
From Verif Require Import NewtonModel NewtonSpec.
Local Open Scope R_scope.

Lemma loop_fx f Df tol n x : let '(y, fy, _) := newton_loop f Df tol n x (f x) in fy = f y.
Proof. revert x. induction n as [|n IH]; intros x; cbn [newton_loop]; auto. destruct (abs_gt (f x) tol); auto. apply IH. Qed.

Lemma loop_left f Df tol n x fx : let '(y, fy, k) := newton_loop f Df tol n x fx in k <> O -> abs_gt fy tol = false.
Proof.
  revert x fx. induction n as [|n IH]; intros x fx; cbn; [lia|].
  destruct (abs_gt fx tol) eqn:E; auto. apply IH.
Qed.

Lemma not_abs_gt f tol x : abs_gt (f x) tol = false -> f x = NaN \/ solves f tol x.
Proof.
  unfold abs_gt, solves. destruct (f x) as [v| | |]; try discriminate; auto.
  destruct (Rlt_dec tol (Rabs v)); [discriminate|]. right. exists v. split; auto.
  pose proof (Rle_abs v). pose proof (Rle_abs (- v)). rewrite Rabs_Ropp in *. lra.
Qed.

Definition below (f : R -> dbl) (tol x : R) : Prop := f x = NInf \/ exists v, f x = Fin v /\ v < - tol.

Lemma not_gt f tol x : gt (f x) tol = false -> f x = NaN \/ solves f tol x \/ below f tol x.
Proof.
  unfold gt, solves, below. destruct (f x) as [v| | |]; try discriminate; auto.
  destruct (Rlt_dec tol v); [discriminate|]. intros _. right.
  destruct (Rlt_dec v (- tol)); [right; right; exists v; auto | left; exists v; split; auto; lra].
Qed.

Lemma newton_returns f Df x0 tol m x : (0 <= m)%Z -> NewtonIteration f Df x0 tol m = Returned x ->
  f x = NaN \/ solves f tol x \/ below f tol x.
Proof.
  intros Hm. unfold NewtonIteration. pose proof (loop_fx f Df tol (Z.to_nat m) x0) as E.
  pose proof (loop_left f Df tol (Z.to_nat m) x0 (f x0)) as L.
  destruct (newton_loop f Df tol (Z.to_nat m) x0 (f x0)) as [[y fy] k]. subst fy.
  destruct (Z.leb_spec 0 m); [|lia]. cbn [andb]. destruct (Nat.eqb_spec k 0); cbn [andb].
  - destruct (gt (f y) tol) eqn:G; [discriminate|]. intros E. injection E as <-. apply not_gt. auto.
  - intros E. injection E as <-. destruct (not_abs_gt f tol y (L n)); auto.
Qed.

Lemma newton_throws f Df x0 tol m x : NewtonIteration f Df x0 tol m = Thrown x ->
  f x = PInf \/ exists v, f x = Fin v /\ v > tol.
Proof.
  unfold NewtonIteration. pose proof (loop_fx f Df tol (Z.to_nat m) x0) as E.
  destruct (newton_loop f Df tol (Z.to_nat m) x0 (f x0)) as [[y fy] k]. subst fy.
  destruct (_ && _ && gt (f y) tol) eqn:G; [|discriminate]. intros E. injection E as <-.
  apply andb_prop in G. destruct G as [_ G]. unfold gt in G. destruct (f y) as [v| | |]; try discriminate; auto.
  destruct (Rlt_dec tol v); [|discriminate]. right. exists v. auto.
Qed.

Lemma loop_nonneg f Df tol n x fx : 0 <= x -> let '(y, _, _) := newton_loop f Df tol n x fx in 0 <= y.
Proof.
  revert x fx. induction n as [|n IH]; intros x fx H; cbn; auto. destruct (abs_gt fx tol); auto. apply IH.
  unfold next_x. destruct (next_value x fx (Df x)) as [v|]; [destruct (Rlt_dec v 0)|]; lra.
Qed.

Lemma newton_nonneg f Df x0 tol m x : 0 <= x0 -> NewtonIteration f Df x0 tol m = Returned x -> 0 <= x.
Proof.
  intros H. unfold NewtonIteration. pose proof (loop_nonneg f Df tol (Z.to_nat m) x0 (f x0) H) as N.
  destruct (newton_loop f Df tol (Z.to_nat m) x0 (f x0)) as [[y fy] k].
  destruct (_ && _ && _); [discriminate|]. intros E. injection E as <-. exact N.
Qed.

(** A constant negative function. *)
Lemma loop_const tol n x : 0 <= x -> 0 <= tol < 1 ->
  newton_loop (fun _ => Fin (-1)) (fun _ => Fin 1) tol n x (Fin (-1)) = (x + INR n, Fin (-1), O).
Proof.
  intros Hx Ht. revert x Hx. induction n as [|n IH]; intros x Hx.
  - cbn. f_equal. f_equal. lra.
  - cbn [newton_loop]. unfold abs_gt. rewrite Rabs_left by lra. destruct (Rlt_dec tol (- -1)); [|lra].
    cbn [next_value]. destruct (Req_EM_T 1 0); [lra|]. cbn [next_x]. destruct (Rlt_dec (x - -1 / 1) 0); [lra|].
    rewrite IH by lra. rewrite S_INR. f_equal. f_equal. lra.
Qed.

(** An affine function with slope s <> 0 and root r >= 0: one step. *)
Lemma newton_affine s r x0 tol m : s <> 0 -> 0 <= r -> 0 <= tol -> (1 <= m)%Z ->
  solves (fun x => Fin (s * (x - r))) tol x0 /\ NewtonIteration (fun x => Fin (s * (x - r))) (fun _ => Fin s) x0 tol m = Returned x0 \/
  NewtonIteration (fun x => Fin (s * (x - r))) (fun _ => Fin s) x0 tol m = Returned r.
Proof.
  intros Hs Hr Ht Hm. unfold NewtonIteration. destruct (Z.to_nat m) as [|n] eqn:En; [lia|].
  destruct (Z.leb_spec 0 m); [|lia]. cbn [newton_loop andb]. destruct (abs_gt (Fin (s * (x0 - r))) tol) eqn:E.
  - right. cbn [next_value]. destruct (Req_EM_T s 0); [contradiction|]. cbn [next_x].
    replace (x0 - s * (x0 - r) / s) with r by (field; auto). destruct (Rlt_dec r 0); [lra|].
    replace (s * (r - r)) with 0 by ring.
    assert (Z0 : abs_gt (Fin 0) tol = false) by (unfold abs_gt; rewrite Rabs_R0; destruct (Rlt_dec tol 0); auto; lra).
    destruct n; cbn [newton_loop]; [|rewrite Z0; cbn; reflexivity].
    cbn [Nat.eqb andb]. unfold gt. destruct (Rlt_dec tol 0); [lra|reflexivity].
  - left. split; [|cbn; reflexivity]. apply (not_abs_gt (fun x => Fin (s * (x - r)))) in E. destruct E as [E | E]; [discriminate|exact E].
Qed.

(** One accepted step for a function below its tangents (a concave function). *)
Lemma loop_concave f df tol n x : (forall x, 0 <= x -> 0 < df x) ->
  (forall x y, 0 <= x -> 0 <= y -> f y <= f x + df x * (y - x)) -> 0 <= x -> f x <= 0 -> 0 <= tol ->
  let '(y, fy, k) := newton_loop (fun x => Fin (f x)) (fun x => Fin (df x)) tol n x (Fin (f x)) in
  x <= y /\ f y <= 0 /\ fy = Fin (f y).
Proof.
  intros Hd Ht Hx Hf Htol. revert x Hx Hf. induction n as [|n IH]; intros x Hx Hf; cbn [newton_loop]; [repeat split; lra|].
  destruct (abs_gt (Fin (f x)) tol); [|repeat split; lra].
  cbn [next_value]. pose proof (Hd x Hx). destruct (Req_EM_T (df x) 0); [lra|]. cbn [next_x].
  assert (Hq : 0 <= - f x / df x) by (apply Rmult_le_pos; [lra | apply Rlt_le, Rinv_0_lt_compat; auto]).
  assert (E : x - f x / df x = x + - f x / df x) by (unfold Rdiv; ring).
  destruct (Rlt_dec (x - f x / df x) 0); [lra|].
  assert (F : f (x - f x / df x) <= 0).
  { pose proof (Ht x (x - f x / df x) Hx ltac:(lra)) as T.
    replace (f x + df x * (x - f x / df x - x)) with 0 in T by (field; lra). exact T. }
  specialize (IH (x - f x / df x) ltac:(lra) F).
  destruct (newton_loop _ _ tol n _ _) as [[y fy] k]. destruct IH as (I1 & I2 & I3). repeat split; auto; lra.
Qed.
