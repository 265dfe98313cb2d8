(** Lemmas for C83 and C84. *)
From Coq Require Import List ZArith Reals Lia Lra Bool FinFun.
From Verif Require Import AxialModel AxialSpec.
Import ListNotations.
Local Open Scope R_scope.

Lemma put_same m c k v : put m c k v c k = v.
Proof. unfold put. rewrite Z.eqb_refl, Nat.eqb_refl. reflexivity. Qed.

Lemma put_other m c k v c' k' : c' <> c \/ k' <> k -> put m c k v c' k' = m c' k'.
Proof.
  intros H. unfold put. destruct (Z.eqb_spec c' c) as [-> | N]; [|reflexivity]. destruct (Nat.eqb_spec k' k) as [-> | N]; [|reflexivity].
  exfalso. tauto.
Qed.

Lemma update_components_in area flux dt dx c ks m k : NoDup ks -> In k ks ->
  update_components area flux dt dx c ks m c k =
  m c k + dt / dx * (area c * flux c k - area (c + 1)%Z * flux (c + 1)%Z k) * ooA area c.
Proof.
  revert m. induction ks as [|k' ks IH]; intros m ND H; [contradiction|]. inversion ND; subst. cbn [update_components].
  destruct (Nat.eq_dec k' k) as [-> | N].
  - assert (forall m', update_components area flux dt dx c ks m' c k = m' c k) as O.
    { clear IH H ND. induction ks as [|k2 ks IH]; intros m'; [reflexivity|]. cbn [update_components].
      inversion H3; subst. rewrite IH; [|intros I; apply H2; right; exact I|assumption].
      apply put_other. right. intros ->. apply H2. left. reflexivity. }
    rewrite O. apply put_same.
  - destruct H as [H|H]; [contradiction|]. rewrite IH by assumption. rewrite put_other by (right; congruence). reflexivity.
Qed.

Lemma update_components_out area flux dt dx c ks m c' k : c' <> c \/ ~ In k ks ->
  update_components area flux dt dx c ks m c' k = m c' k.
Proof.
  revert m. induction ks as [|k' ks IH]; intros m H; [reflexivity|]. cbn [update_components].
  rewrite IH by (destruct H as [H|H]; [left; exact H|right; intros I; apply H; right; exact I]).
  apply put_other. destruct H as [H|H]; [left; exact H|right; intros ->; apply H; left; reflexivity].
Qed.

Section Update.
Variables (mom n_cons : nat) (area p : Z -> R) (flux : cells) (dt dx : R).
Hypothesis Hmom : (mom < n_cons)%nat.

Definition new_value (m : cells) (c : Z) (k : nat) : R :=
  m c k + dt / dx * (area c * flux c k - area (c + 1)%Z * flux (c + 1)%Z k) * ooA area c +
  (if Nat.eqb k mom then dt / dx * (area (c + 1)%Z - area c) * (1 / 2 * (p c + p (c + 1)%Z)) * ooA area c else 0).

Lemma update_cell_same m c k : (k < n_cons)%nat -> update_cell mom n_cons area p flux dt dx m c c k = new_value m c k.
Proof.
  intros H. unfold update_cell, new_value.
  assert (forall k', (k' < n_cons)%nat -> NoDup (seq 0 n_cons) /\ In k' (seq 0 n_cons)) as I.
  { intros k' Hk. split; [apply seq_NoDup|apply in_seq; lia]. }
  destruct (Nat.eqb_spec k mom) as [-> | N].
  - rewrite put_same. rewrite update_components_in by (first [apply seq_NoDup | apply I; assumption]). reflexivity.
  - rewrite put_other by (right; exact N). rewrite update_components_in by (first [apply seq_NoDup | apply I; assumption]). ring.
Qed.

Lemma update_cell_other m c c' k : c' <> c \/ (n_cons <= k)%nat -> update_cell mom n_cons area p flux dt dx m c c' k = m c' k.
Proof.
  intros H. unfold update_cell. rewrite put_other by (destruct H; [left; assumption|right; lia]).
  apply update_components_out. destruct H as [H|H]; [left; exact H|right; rewrite in_seq; lia].
Qed.

Lemma loop_out cs m c k : ~ In c cs \/ (n_cons <= k)%nat ->
  fold_left (update_cell mom n_cons area p flux dt dx) cs m c k = m c k.
Proof.
  revert m. induction cs as [|c' cs IH]; intros m H; [reflexivity|]. cbn [fold_left].
  rewrite IH by (destruct H as [H|H]; [left; intros I; apply H; right; exact I|right; exact H]).
  apply update_cell_other. destruct H as [H|H]; [left; intros ->; apply H; left; reflexivity|right; exact H].
Qed.

Lemma loop_in cs m c k : NoDup cs -> In c cs -> (k < n_cons)%nat ->
  fold_left (update_cell mom n_cons area p flux dt dx) cs m c k = new_value m c k.
Proof.
  revert m. induction cs as [|c' cs IH]; intros m ND H Hk; [contradiction|]. inversion ND; subst. cbn [fold_left].
  destruct (Z.eq_dec c' c) as [-> | N].
  - rewrite loop_out by (left; assumption). apply update_cell_same. exact Hk.
  - destruct H as [H|H]; [contradiction|]. rewrite IH by assumption. unfold new_value. rewrite update_cell_other by (left; congruence). reflexivity.
Qed.
End Update.

Lemma between_in lo hi c : In c (between lo hi) <-> (lo <= c < hi)%Z.
Proof.
  unfold between. rewrite in_map_iff. split.
  - intros (i & <- & H). apply in_seq in H. lia.
  - intros H. exists (Z.to_nat (c - lo)). split; [lia|]. apply in_seq. lia.
Qed.

Lemma between_NoDup lo hi : NoDup (between lo hi).
Proof.
  unfold between. apply FinFun.Injective_map_NoDup; [|apply seq_NoDup]. intros i j H. lia.
Qed.

(** Sums *)
Lemma sum_from_ext lo n f g : (forall c, (lo <= c < lo + Z.of_nat n)%Z -> f c = g c) -> sum_from lo n f = sum_from lo n g.
Proof.
  revert lo. induction n as [|n IH]; intros lo H; [reflexivity|]. cbn [sum_from]. rewrite H by lia. f_equal. apply IH. intros c Hc. apply H. lia.
Qed.

Lemma sum_from_plus lo n f g : sum_from lo n (fun c => f c + g c) = sum_from lo n f + sum_from lo n g.
Proof. revert lo. induction n as [|n IH]; intros lo; cbn [sum_from]; [ring|]. rewrite IH. ring. Qed.

Lemma sum_from_scale lo n a f : sum_from lo n (fun c => a * f c) = a * sum_from lo n f.
Proof. revert lo. induction n as [|n IH]; intros lo; cbn [sum_from]; [ring|]. rewrite IH. ring. Qed.

Lemma sum_from_telescope lo n f : sum_from lo n (fun c => f c - f (c + 1)%Z) = f lo - f (lo + Z.of_nat n)%Z.
Proof.
  revert lo. induction n as [|n IH]; intros lo; cbn [sum_from].
  - rewrite Z.add_0_r. ring.
  - rewrite IH. replace (lo + 1 + Z.of_nat n)%Z with (lo + Z.of_nat (S n))%Z by lia. ring.
Qed.

(** The cached areas *)
Lemma nth_replace i x l j d : nth j (replace_nth i x l) d = if (Nat.eqb j i && Nat.ltb j (length l))%bool then x else nth j l d.
Proof.
  revert i j. induction l as [|y l IH]; intros i j.
  - cbn [length]. change (Nat.ltb j 0) with false. rewrite andb_false_r. destruct i, j; reflexivity.
  - destruct i, j; cbn [replace_nth nth]; try reflexivity.
    rewrite IH. cbn [length]. change (Nat.eqb (S j) (S i)) with (Nat.eqb j i). change (Nat.ltb (S j) (S (length l))) with (Nat.ltb j (length l)). reflexivity.
Qed.

Lemma nth_resize n l j : nth j (resize n l) empty_fab = if Nat.ltb j n then nth j l empty_fab else empty_fab.
Proof.
  unfold resize. destruct (Nat.ltb_spec j n) as [L|L].
  - destruct (Nat.lt_ge_cases j (length l)) as [H|H].
    + rewrite app_nth1 by (rewrite firstn_length; lia). revert n j L H. induction l as [|y l IH]; intros n j L H; [cbn in H; lia|].
      destruct n; [lia|]. destruct j; cbn [firstn nth]; [reflexivity|]. apply IH; cbn in H; lia.
    + rewrite app_nth2 by (rewrite firstn_length; lia). rewrite (nth_overflow l) by lia. apply nth_repeat.
  - apply nth_overflow. rewrite app_length, firstn_length, repeat_length. lia.
Qed.

Lemma length_resize n l : length (resize n l) = n.
Proof. unfold resize. rewrite app_length, firstn_length, repeat_length. lia. Qed.

Definition right_areas (A : R -> R) (geoms : list geometry) (Ax : list area_fab) : Prop :=
  forall j, nth j Ax empty_fab = empty_fab \/
    forall i, fab_values (nth j Ax empty_fab) i = A (LoFace (nth j geoms (mkGeometry 0 0)) i).

Lemma recompute_right A geoms ps level Ax : right_areas A geoms Ax -> right_areas A geoms (RecomputeAxIfNeeded A geoms ps level Ax).
Proof.
  intros H. unfold RecomputeAxIfNeeded.
  set (Ax1 := if Nat.eqb (length ps) (length Ax) then Ax else resize (length ps) Ax).
  assert (right_areas A geoms Ax1) as H1.
  { unfold Ax1. destruct (Nat.eqb _ _); [exact H|]. intros j. rewrite nth_resize. destruct (Nat.ltb j _); [apply H|left; reflexivity]. }
  destruct (layout_eq_dec _ _); [exact H1|]. intros j. rewrite nth_replace. destruct (Nat.eqb_spec j level) as [-> | N]; [|apply H1].
  cbn [andb]. destruct (Nat.ltb level _); [right; reflexivity|apply H1].
Qed.

Lemma recompute_layout A geoms ps level Ax : (level < length ps)%nat ->
  fab_layout (nth level (RecomputeAxIfNeeded A geoms ps level Ax) empty_fab) = nth level ps (mkLayout [] [] 0).
Proof.
  intros H. unfold RecomputeAxIfNeeded.
  set (Ax1 := if Nat.eqb (length ps) (length Ax) then Ax else resize (length ps) Ax).
  assert (length Ax1 = length ps) as L.
  { unfold Ax1. destruct (Nat.eqb_spec (length ps) (length Ax)); [congruence|apply length_resize]. }
  destruct (layout_eq_dec _ _) as [E|E]; [congruence|]. rewrite nth_replace, Nat.eqb_refl.
  destruct (Nat.ltb_spec level (length Ax1)); [reflexivity|lia].
Qed.

Lemma history_right A geoms events : forall s, right_areas A geoms (snd s) -> right_areas A geoms (snd (fold_left (axial_step A geoms) events s)).
Proof.
  induction events as [|e events IH]; intros s H; [exact H|]. cbn [fold_left]. apply IH. destruct e; cbn [axial_step snd].
  - apply recompute_right. exact H.
  - exact H.
  - intros j. left. destruct j; reflexivity.
Qed.

(** ** The source term *)
Lemma exp_decays a y0 : decays (- a) (fun t => y0 * exp (- a * t)).
Proof.
  intros t. replace (- a * (y0 * exp (- a * t))) with (y0 * (exp (- a * t) * - a)) by ring.
  apply (derivable_pt_lim_scal (fun t => exp (- a * t)) y0 t).
  apply (derivable_pt_lim_comp (fun t => - a * t) exp t); [|apply derivable_pt_lim_exp].
  pose proof (derivable_pt_lim_scal (fun t => t) (- a) t 1 (derivable_pt_lim_id t)) as H. rewrite Rmult_1_r in H. exact H.
Qed.

Lemma Rpower_mul_exp r x g : 0 < r -> Rpower (r * exp x) g = Rpower r g * exp (g * x).
Proof.
  intros H. unfold Rpower. rewrite ln_mult by (try exact H; apply exp_pos). rewrite ln_exp, <- exp_plus. f_equal. ring.
Qed.

Lemma adiabatic_exp g rho p w dt : 0 < rho -> adiabatic g rho p (rho * exp (- w * dt)) (p * exp (- g * w * dt)).
Proof.
  intros H. unfold adiabatic. rewrite Rpower_mul_exp by exact H.
  replace (g * (- w * dt)) with (- g * w * dt) by ring.
  assert (0 < Rpower rho g) by (unfold Rpower; apply exp_pos). pose proof (exp_pos (- g * w * dt)). field. split; lra.
Qed.
