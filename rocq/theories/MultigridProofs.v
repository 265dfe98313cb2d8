(** Lemmas for the properties of the multigrid kernels. *)
From Coq Require Import List Reals ZArith Lra Lia Bool FunctionalExtensionality.
From Verif Require Import LowMachModel LowMachSpec LowMachProofs LowMachProofs2 LowMachProofs3 MultigridModel MultigridSpec.
Import ListNotations.
Local Open Scope R_scope.

Ltac eqbs := repeat match goal with |- context [Z.eqb ?a ?b] => destruct (Z.eqb_spec a b); try (exfalso; lia); cbn [andb] end.

Lemma upd_same (x : field) (i j : Z) (v : R) : upd x i j v i j = v.
Proof. unfold upd. rewrite !Z.eqb_refl. reflexivity. Qed.
Lemma upd_other (x : field) (i j : Z) (v : R) (a b : Z) : (a, b) <> (i, j) -> upd x i j v a b = x a b.
Proof. intros H. unfold upd. destruct (Z.eqb_spec a i), (Z.eqb_spec b j); cbn; try reflexivity. subst. contradiction. Qed.
Lemma upd_id (x : field) (i j : Z) : upd x i j (x i j) = x.
Proof. apply functional_extensionality. intros a. apply functional_extensionality. intros b. unfold upd. destruct (Z.eqb_spec a i), (Z.eqb_spec b j); cbn; subst; reflexivity. Qed.

(** * The divisors are the diagonals *)
Lemma adotx_upd (o : linop) (dx : bool -> R) (x : field) (i j : Z) (v : R) : adotx o dx (upd x i j v) i j = adotx o dx x i j + (v - x i j) * gs_div_aa o dx i j.
Proof. unfold adotx, gs_div_aa, upd. cbv zeta. eqbs. ring. Qed.
Lemma adotx_ha_upd (sx sy : field) (dx : bool -> R) (x : field) (i j : Z) (v : R) : adotx_ha sx sy dx (upd x i j v) i j = adotx_ha sx sy dx x i j + (v - x i j) * gs_div_ha sx sy dx i j.
Proof. unfold adotx_ha, gs_div_ha, upd. cbv zeta. eqbs. ring. Qed.
Lemma gs_Ax (o : linop) (dx : bool -> R) (x : field) (i j : Z) : gs_Ax_aa o dx x i j = adotx o dx x i j.
Proof. unfold adotx, gs_Ax_aa, gs_div_aa. cbv zeta. ring. Qed.
Lemma gs_Ax_h (sx sy : field) (dx : bool -> R) (x : field) (i j : Z) : gs_Ax_ha sx sy dx x i j = adotx_ha sx sy dx x i j.
Proof. unfold adotx_ha, gs_Ax_ha, gs_div_ha. cbv zeta. ring. Qed.

Lemma diagonal_aa (o : linop) (dx : bool -> R) (i j : Z) : diagonal (adotx o dx) i j = gs_div_aa o dx i j.
Proof. unfold diagonal, adotx, gs_div_aa, unit_at. cbv zeta. eqbs. ring. Qed.
Lemma diagonal_ha (sx sy : field) (dx : bool -> R) (i j : Z) : diagonal (adotx_ha sx sy dx) i j = gs_div_ha sx sy dx i j.
Proof. unfold diagonal, adotx_ha, gs_div_ha, unit_at. cbv zeta. eqbs. ring. Qed.
Lemma jacobi_div (o : linop) (dx : bool -> R) (i j : Z) : jacobi_div_aa o dx i j = gs_div_aa o dx i j.
Proof. unfold jacobi_div_aa, gs_div_aa. cbv zeta. ring. Qed.
Lemma jacobi_div_h (sx sy : field) (dx : bool -> R) (i j : Z) : jacobi_div_ha sx sy dx i j = gs_div_ha sx sy dx i j.
Proof. unfold jacobi_div_ha, gs_div_ha. cbv zeta. ring. Qed.

(** * Sweeps *)
Section Sweep.
Context (msk : mask) (s0 : Z -> Z -> R) (Ax : field -> Z -> Z -> R) (rhs : field).
Let sweep := fold_left (gs_node msk s0 Ax rhs).

Lemma node_other (sol : field) (p : Z * Z) (a b : Z) : (a, b) <> p -> gs_node msk s0 Ax rhs sol p a b = sol a b.
Proof. destruct p as [i j]. intros H. unfold gs_node. destruct (msk i j); apply upd_other, H. Qed.

Lemma sweep_other (nodes : list (Z * Z)) : forall (sol : field) (a b : Z), ~ In (a, b) nodes -> sweep nodes sol a b = sol a b.
Proof.
  unfold sweep. induction nodes as [|p r IH]; intros sol a b H; [reflexivity|]. cbn [fold_left]. rewrite IH by (intros C; apply H; right; exact C).
  apply node_other. intros E. apply H. left. symmetry. exact E.
Qed.

Lemma node_fixed (sol : field) (i j : Z) : (if msk i j then sol i j = 0 else Ax sol i j = rhs i j) -> gs_node msk s0 Ax rhs sol (i, j) = sol.
Proof.
  intros H. unfold gs_node. destruct (msk i j).
  - rewrite <- H. apply upd_id.
  - rewrite H. replace (sol i j + (rhs i j - rhs i j) / s0 i j) with (sol i j) by (unfold Rdiv; ring). apply upd_id.
Qed.

Lemma node_keeps (sol : field) (i j : Z) : s0 i j <> 0 \/ msk i j = true -> gs_node msk s0 Ax rhs sol (i, j) i j = sol i j -> if msk i j then sol i j = 0 else Ax sol i j = rhs i j.
Proof.
  intros N. unfold gs_node. destruct (msk i j) eqn:M; rewrite upd_same; [intros E; symmetry; exact E|]. intros E.
  destruct N as [N|N]; [|discriminate]. assert (D : (rhs i j - Ax sol i j) / s0 i j = 0) by lra.
  unfold Rdiv in D. apply Rmult_integral in D as [D|D]; [lra|]. apply Rinv_neq_0_compat in N. contradiction.
Qed.

Lemma sweep_keeps (nodes : list (Z * Z)) (sol : field) : (forall i j, In (i, j) nodes -> if msk i j then sol i j = 0 else Ax sol i j = rhs i j) -> sweep nodes sol = sol.
Proof.
  unfold sweep. induction nodes as [|[i j] r IH]; intros H; [reflexivity|]. cbn [fold_left]. rewrite node_fixed by (apply H; left; reflexivity).
  apply IH. intros a b Hab. apply H. right. exact Hab.
Qed.

Lemma sweep_fixed (nodes : list (Z * Z)) (sol : field) : NoDup nodes -> (forall i j, In (i, j) nodes -> s0 i j <> 0 \/ msk i j = true) ->
  (forall i j, sweep nodes sol i j = sol i j) -> forall i j, In (i, j) nodes -> if msk i j then sol i j = 0 else Ax sol i j = rhs i j.
Proof.
  unfold sweep. induction nodes as [|[a b] r IH]; intros Hd Hn H; [intros i j []|]. inversion Hd as [|? ? Hna Hdr]; subst. cbn [fold_left] in H.
  assert (E : gs_node msk s0 Ax rhs sol (a, b) a b = sol a b).
  { rewrite <- H. symmetry. apply (sweep_other r). exact Hna. }
  pose proof (node_keeps sol a b (Hn a b (or_introl eq_refl)) E) as F.
  rewrite (node_fixed sol a b F) in H.
  intros i j [Hi | Hi]; [inversion Hi; subst; exact F|]. apply IH; try assumption. intros x y Hxy. apply Hn. right. exact Hxy.
Qed.
End Sweep.

(** * Sums over fine grids *)
Lemma sum1_double (n : nat) (g : Z -> R) : sum1 (2 * n) g = sum1 n (fun i => g (2 * i)%Z + g (2 * i + 1)%Z).
Proof.
  induction n as [|n IH]; [reflexivity|]. replace (2 * S n)%nat with (S (S (2 * n))) by lia. cbn [sum1]. rewrite IH.
  replace (Z.of_nat (2 * n)) with (2 * Z.of_nat n)%Z by lia. replace (Z.of_nat (S (2 * n))) with (2 * Z.of_nat n + 1)%Z by lia. ring.
Qed.

Lemma total_double (n m : nat) (g : field) : total (2 * n) (2 * m) g =
  total n m (fun i j => g (2 * i)%Z (2 * j)%Z + g (2 * i)%Z (2 * j + 1)%Z + g (2 * i + 1)%Z (2 * j)%Z + g (2 * i + 1)%Z (2 * j + 1)%Z).
Proof.
  unfold total. rewrite sum1_double. apply sum1_ext. intros i. rewrite !sum1_double.
  rewrite <- (Rmult_1_l (sum1 m (fun j => g (2 * i + 1)%Z (2 * j)%Z + g (2 * i + 1)%Z (2 * j + 1)%Z))), <- sum1_lin. apply sum1_ext. intros j. ring.
Qed.

Lemma half_even (i : Z) : ((2 * i) / 2 = i)%Z.
Proof. rewrite Z.mul_comm. apply Z.div_mul. lia. Qed.
Lemma half_odd (i : Z) : ((2 * i + 1) / 2 = i)%Z.
Proof. symmetry. apply (Z.div_unique (2 * i + 1) 2 i 1); lia. Qed.
Lemma half_next (i : Z) : ((2 * i + 1 + 1) / 2 = i + 1)%Z.
Proof. replace (2 * i + 1 + 1)%Z with (2 * (i + 1))%Z by lia. apply half_even. Qed.

Lemma total_shift_x' (n m : nat) (g : field) : periodic n m g -> total n m (fun i j => g (i + 1)%Z j) = total n m g.
Proof.
  intros H. rewrite <- (total_shift_x n m (fun i j => g (i + 1)%Z j)).
  - apply total_ext. intros i j. f_equal. lia.
  - intros i j. replace (i + Z.of_nat n + 1)%Z with (i + 1 + Z.of_nat n)%Z by lia. split; apply H.
Qed.
Lemma total_shift_y' (n m : nat) (g : field) : periodic n m g -> total n m (fun i j => g i (j + 1)%Z) = total n m g.
Proof.
  intros H. rewrite <- (total_shift_y n m (fun i j => g i (j + 1)%Z)).
  - apply total_ext. intros i j. f_equal. lia.
  - intros i j. replace (j + Z.of_nat m + 1)%Z with (j + 1 + Z.of_nat m)%Z by lia. split; apply H.
Qed.
