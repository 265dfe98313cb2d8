(** Properties of the kernels of the multigrid solver for the pressure: the smoothers leave exactly the solutions unchanged, the transfer between grids, walls. *)
From Coq Require Import List Reals ZArith Lra Lia Bool FunctionalExtensionality.
From Verif Require Import LowMachModel LowMachSpec LowMachProofs LowMachProofs2 LowMachProofs3 MultigridModel MultigridSpec MultigridProofs MultigridProofs2.
Import ListNotations.
Local Open Scope R_scope.

(** * C138: smoothers *)
Lemma solves_gs (msk : mask) (o : linop) (dx : bool -> R) (rhs : field) (nodes : list (Z * Z)) (sol : field) : solves msk (adotx o dx) rhs nodes sol ->
  forall i j, In (i, j) nodes -> if msk i j then sol i j = 0 else gs_Ax_aa o dx sol i j = rhs i j.
Proof. intros H i j Hi. specialize (H i j Hi). rewrite gs_Ax. exact H. Qed.

(** A sweep over the nodes of a box, in any order, changes nothing outside of the box. A field with the right values in all of these nodes stays as it is,
    and a field which a sweep does not change has the right values: zero in masked nodes, [A sol = rhs] in the others. *)
Theorem C138_gauss_seidel (msk : mask) (o : linop) (dx : bool -> R) (rhs : field) (nodes : list (Z * Z)) (sol : field) :
  NoDup nodes -> (forall i j, In (i, j) nodes -> msk i j = false -> diagonal (adotx o dx) i j <> 0) ->
  (forall i j, ~ In (i, j) nodes -> gauss_seidel_aa msk o dx rhs nodes sol i j = sol i j) /\
  ((forall i j, gauss_seidel_aa msk o dx rhs nodes sol i j = sol i j) <-> solves msk (adotx o dx) rhs nodes sol).
Proof.
  intros Hd Hn. unfold gauss_seidel_aa. split; [intros i j Hi; apply sweep_other, Hi|]. split.
  - intros H i j Hi. pose proof (sweep_fixed msk (gs_div_aa o dx) (gs_Ax_aa o dx) rhs nodes sol Hd) as F. rewrite <- gs_Ax. apply F; [|exact H|exact Hi].
    intros a b Hab. destruct (msk a b) eqn:M; [right; reflexivity|left]. rewrite <- diagonal_aa. apply Hn; assumption.
  - intros H i j. rewrite (sweep_keeps msk (gs_div_aa o dx) (gs_Ax_aa o dx) rhs nodes sol (solves_gs _ _ _ _ _ _ H)). reflexivity.
Qed.
Print Assumptions C138_gauss_seidel.

(** The same for the operator of the coarser grids. *)
Theorem C138_gauss_seidel_harmonic (msk : mask) (sx sy : field) (dx : bool -> R) (rhs : field) (nodes : list (Z * Z)) (sol : field) :
  NoDup nodes -> (forall i j, In (i, j) nodes -> msk i j = false -> diagonal (adotx_ha sx sy dx) i j <> 0) ->
  (forall i j, ~ In (i, j) nodes -> gauss_seidel_ha msk sx sy dx rhs nodes sol i j = sol i j) /\
  ((forall i j, gauss_seidel_ha msk sx sy dx rhs nodes sol i j = sol i j) <-> solves msk (adotx_ha sx sy dx) rhs nodes sol).
Proof.
  intros Hd Hn. unfold gauss_seidel_ha. split; [intros i j Hi; apply sweep_other, Hi|]. split.
  - intros H i j Hi. pose proof (sweep_fixed msk (gs_div_ha sx sy dx) (gs_Ax_ha sx sy dx) rhs nodes sol Hd) as F. rewrite <- gs_Ax_h. apply F; [|exact H|exact Hi].
    intros a b Hab. destruct (msk a b) eqn:M; [right; reflexivity|left]. rewrite <- diagonal_ha. apply Hn; assumption.
  - intros H i j. rewrite (sweep_keeps msk (gs_div_ha sx sy dx) (gs_Ax_ha sx sy dx) rhs nodes sol); [reflexivity|].
    intros a b Hab. specialize (H a b Hab). rewrite gs_Ax_h. exact H.
Qed.
Print Assumptions C138_gauss_seidel_harmonic.

(** The equation of the node which was updated last holds exactly. *)
Theorem C138_last_equation (msk : mask) (o : linop) (sx sy : field) (dx : bool -> R) (rhs : field) (nodes : list (Z * Z)) (sol : field) (i j : Z) : msk i j = false ->
  (diagonal (adotx o dx) i j <> 0 -> adotx o dx (gauss_seidel_aa msk o dx rhs (nodes ++ [(i, j)]) sol) i j = rhs i j) /\
  (diagonal (adotx_ha sx sy dx) i j <> 0 -> adotx_ha sx sy dx (gauss_seidel_ha msk sx sy dx rhs (nodes ++ [(i, j)]) sol) i j = rhs i j).
Proof.
  intros M. unfold gauss_seidel_aa, gauss_seidel_ha. rewrite !fold_left_app. cbn [fold_left]. unfold gs_node at 1 3. rewrite M. split; intros N.
  - rewrite diagonal_aa in N. rewrite adotx_upd, gs_Ax. field. exact N.
  - rewrite diagonal_ha in N. rewrite adotx_ha_upd, gs_Ax_h. field. exact N.
Qed.
Print Assumptions C138_last_equation.

(** A masked node is zero after a sweep over a box which contains it. *)
Theorem C138_masked (msk : mask) (o : linop) (dx : bool -> R) (rhs : field) (nodes : list (Z * Z)) (sol : field) (i j : Z) : msk i j = true -> In (i, j) nodes ->
  gauss_seidel_aa msk o dx rhs nodes sol i j = 0.
Proof.
  intros M Hi. unfold gauss_seidel_aa. revert sol. induction nodes as [|p r IH]; [destruct Hi|]. intros sol. cbn [fold_left].
  destruct (in_dec pair_dec (i, j) r) as [Hr|Hr]; [apply IH, Hr|].
  rewrite sweep_other by exact Hr. destruct Hi as [-> |Hi]; [|contradiction]. unfold gs_node. rewrite M. apply upd_same.
Qed.
Print Assumptions C138_masked.

(** The damped Jacobi iteration divides the residual by the diagonal, with two thirds as factor; it keeps exactly the solutions. *)
Theorem C138_jacobi (msk : mask) (o : linop) (sx sy : field) (dx : bool -> R) (rhs sol : field) (i j : Z) :
  (msk i j = true -> jacobi_aa msk o dx (masked msk (adotx o dx) sol) rhs sol i j = 0 /\ jacobi_ha msk sx sy dx (masked msk (adotx_ha sx sy dx) sol) rhs sol i j = 0) /\
  (msk i j = false -> diagonal (adotx o dx) i j <> 0 ->
    jacobi_aa msk o dx (masked msk (adotx o dx) sol) rhs sol i j = sol i j + 2 / 3 * ((rhs i j - adotx o dx sol i j) / diagonal (adotx o dx) i j) /\
    (jacobi_aa msk o dx (masked msk (adotx o dx) sol) rhs sol i j = sol i j <-> adotx o dx sol i j = rhs i j)) /\
  (msk i j = false -> diagonal (adotx_ha sx sy dx) i j <> 0 ->
    jacobi_ha msk sx sy dx (masked msk (adotx_ha sx sy dx) sol) rhs sol i j = sol i j + 2 / 3 * ((rhs i j - adotx_ha sx sy dx sol i j) / diagonal (adotx_ha sx sy dx) i j) /\
    (jacobi_ha msk sx sy dx (masked msk (adotx_ha sx sy dx) sol) rhs sol i j = sol i j <-> adotx_ha sx sy dx sol i j = rhs i j)).
Proof.
  assert (K : forall s r a d : R, d <> 0 -> (s + 2 / 3 * (r - a) / d = s <-> a = r)).
  { intros s r a d N. split; [intros E|intros ->; field; exact N].
    assert (E' : 2 / 3 * (r - a) = 0); [|lra]. replace (2 / 3 * (r - a)) with ((2 / 3 * (r - a) / d) * d) by (field; exact N). replace (2 / 3 * (r - a) / d) with 0 by lra. ring. }
  unfold jacobi_aa, jacobi_ha, masked. rewrite jacobi_div, jacobi_div_h, diagonal_aa, diagonal_ha. split; [intros ->; split; reflexivity|].
  split; intros -> N; (split; [unfold Rdiv; ring|apply K, N]).
Qed.
Print Assumptions C138_jacobi.

(** Normalised, the operator has ones on the diagonal, and the equation of a node is equivalent to the normalised equation. *)
Theorem C138_normalize (msk : mask) (o : linop) (sx sy : field) (dx : bool -> R) (x rhs : field) (i j : Z) : msk i j = false ->
  (diagonal (adotx o dx) i j <> 0 ->
    diagonal (fun y => normalize_aa msk o dx (adotx o dx y)) i j = 1 /\
    (normalize_aa msk o dx (adotx o dx x) i j = normalize_aa msk o dx rhs i j <-> adotx o dx x i j = rhs i j)) /\
  (diagonal (adotx_ha sx sy dx) i j <> 0 ->
    diagonal (fun y => normalize_ha msk sx sy dx (adotx_ha sx sy dx y)) i j = 1 /\
    (normalize_ha msk sx sy dx (adotx_ha sx sy dx x) i j = normalize_ha msk sx sy dx rhs i j <-> adotx_ha sx sy dx x i j = rhs i j)).
Proof.
  assert (K : forall a b d : R, d <> 0 -> (a / d = b / d <-> a = b)).
  { intros a b d N. split; [intros E|intros ->; reflexivity]. replace a with (a / d * d) by (field; exact N). rewrite E. field. exact N. }
  intros M. split; intros N.
  - split.
    + unfold diagonal, normalize_aa. rewrite M. change (normalize_div_aa o dx i j) with (gs_div_aa o dx i j). rewrite <- diagonal_aa. unfold diagonal in N |- *. field. exact N.
    + unfold normalize_aa. rewrite M. change (normalize_div_aa o dx i j) with (gs_div_aa o dx i j). rewrite <- diagonal_aa. apply K, N.
  - split.
    + unfold diagonal, normalize_ha. rewrite M. change (normalize_div_ha sx sy dx i j) with (gs_div_ha sx sy dx i j). rewrite <- diagonal_ha. unfold diagonal in N |- *. field. exact N.
    + unfold normalize_ha. rewrite M. change (normalize_div_ha sx sy dx i j) with (gs_div_ha sx sy dx i j). rewrite <- diagonal_ha. apply K, N.
Qed.
Print Assumptions C138_normalize.
(** Values at masked (Dirichlet) nodes are not touched by it. *)
Theorem C138_normalize_masked (msk : mask) (o : linop) (sx sy : field) (dx : bool -> R) (x : field) (i j : Z) : msk i j = true ->
  normalize_aa msk o dx x i j = x i j /\ normalize_ha msk sx sy dx x i j = x i j.
Proof. intros M. unfold normalize_aa, normalize_ha. rewrite M. split; reflexivity. Qed.
Print Assumptions C138_normalize_masked.

(** The divisors are not zero: the diagonal of the operator of the implicit step is negative, and so is that of the coarser grids for positive coefficients. *)
Theorem C138_diagonal (p : parameters) (dt : R) (dx : bool -> R) (l : level) (o : linop) (sx sy : field) (i j : Z) :
  (forall d, 0 < dx d) ->
  (0 < c_p p -> 0 < dt -> 1 < gamma p -> 0 <= alpha_p p -> 0 <= Msq p -> admissible l -> (alpha_p p = 0 -> forall i j, alpha o i j = 0) ->
    diagonal (adotx (backward_op p dt l o) dx) i j < 0) /\
  ((forall i j, 0 < sx i j) -> (forall i j, 0 < sy i j) -> diagonal (adotx_ha sx sy dx) i j < 0).
Proof.
  intros Hdx. assert (Ix : 0 < / dx true) by apply Rinv_0_lt_compat, Hdx. assert (Iy : 0 < / dx false) by apply Rinv_0_lt_compat, Hdx.
  assert (Qx : 0 < / dx true * / dx true) by (apply Rmult_lt_0_compat; assumption). assert (Qy : 0 < / dx false * / dx false) by (apply Rmult_lt_0_compat; assumption). split.
  - intros Hc Hdt Hg Ha HM Hl H0.
    assert (Al : alpha (backward_op p dt l o) i j <= 0).
    { destruct (op_cross p dt l o i j) as (_ & _ & _ & A1 & A2). destruct (Rlt_dec 0 (alpha_p p)) as [c|c]; [rewrite (A1 c); apply diagfac_sign; assumption|rewrite (A2 c), H0 by lra; lra]. }
    assert (Sp : forall a b, 0 < sigma (backward_op p dt l o) a b) by (intros a b; apply op_positive; assumption).
    assert (Cr : forall a b, sigc1 (backward_op p dt l o) a b = - sigc0 (backward_op p dt l o) a b) by (intros a b; destruct (op_cross p dt l o a b) as (_ & -> & -> & _); ring).
    rewrite diagonal_aa. unfold gs_div_aa. cbv zeta. rewrite !Cr. pose proof (Sp (i - 1)%Z (j - 1)%Z). pose proof (Sp i (j - 1)%Z). pose proof (Sp (i - 1)%Z j). pose proof (Sp i j).
    set (b := backward_op p dt l o) in *.
    assert (T : 0 < (/ dx true * / dx true + / dx false * / dx false) * (sigma b (i - 1)%Z (j - 1)%Z + sigma b i (j - 1)%Z + sigma b (i - 1)%Z j + sigma b i j)) by (apply Rmult_lt_0_compat; lra).
    unfold Rdiv in *. lra.
  - intros Hx Hy. rewrite diagonal_ha. unfold gs_div_ha. cbv zeta.
    assert (T : 0 < / dx true * / dx true * (sx (i - 1)%Z (j - 1)%Z + sx i (j - 1)%Z + sx (i - 1)%Z j + sx i j)).
    { apply Rmult_lt_0_compat; [assumption|]. pose proof (Hx (i - 1)%Z (j - 1)%Z). pose proof (Hx i (j - 1)%Z). pose proof (Hx (i - 1)%Z j). pose proof (Hx i j). lra. }
    assert (T' : 0 < / dx false * / dx false * (sy (i - 1)%Z (j - 1)%Z + sy i (j - 1)%Z + sy (i - 1)%Z j + sy i j)).
    { apply Rmult_lt_0_compat; [assumption|]. pose proof (Hy (i - 1)%Z (j - 1)%Z). pose proof (Hy i (j - 1)%Z). pose proof (Hy (i - 1)%Z j). pose proof (Hy i j). lra. }
    unfold Rdiv in *. lra.
Qed.
Print Assumptions C138_diagonal.

(** The smoother of several boxes keeps a solution, for every decomposition and every choice of the owners of shared nodes. *)
Theorem C138_boxes (boxes : list (list (Z * Z))) (owner : Z -> Z -> option nat) (msk : mask) (o : linop) (dx : bool -> R) (rhs sol : field) :
  (forall b, In b boxes -> solves msk (adotx o dx) rhs b sol) ->
  forall i j, Fsmooth boxes owner msk o dx rhs sol i j = sol i j.
Proof.
  intros H i j. unfold Fsmooth. destruct (owner i j) as [b|]; [|reflexivity].
  assert (Hb : solves msk (adotx o dx) rhs (nth b boxes []) sol).
  { destruct (nth_in_or_default b boxes []) as [Hb | ->]; [apply H, Hb|intros x y []]. }
  unfold gauss_seidel_aa. rewrite !(sweep_keeps msk (gs_div_aa o dx) (gs_Ax_aa o dx) rhs _ sol (solves_gs _ _ _ _ _ _ Hb)). reflexivity.
Qed.
Print Assumptions C138_boxes.

(** A node with a coefficient one around it: the diagonal is -2; from zero with the right hand side 6 one step goes to -3 *)
Definition C138_op : linop := mkOp (fun _ _ => 1) (fun _ _ => 0) (fun _ _ => 0) (fun _ _ => 0).
Example C138_example :
  diagonal (adotx C138_op (fun _ => 1)) 0 0 = -2 /\ gauss_seidel_aa no_mask C138_op (fun _ => 1) (fun _ _ => 6) [(0, 0)%Z] (fun _ _ => 0) 0%Z 0%Z = -3 /\
  jacobi_aa no_mask C138_op (fun _ => 1) (masked no_mask (adotx C138_op (fun _ => 1)) (fun _ _ => 0)) (fun _ _ => 6) (fun _ _ => 0) 0%Z 0%Z = -2 /\
  NoDup [(0, 0)%Z; (1, 0)%Z] /\ solves no_mask (adotx C138_op (fun _ => 1)) (fun _ _ => 0) [(0, 0)%Z; (1, 0)%Z] (fun _ _ => 5).
Proof.
  split; [rewrite diagonal_aa; unfold gs_div_aa, C138_op; cbn [sigma sigc0 sigc1 alpha]; lra|]. split.
  { unfold gauss_seidel_aa. cbn [fold_left]. unfold gs_node, no_mask. rewrite upd_same. unfold gs_Ax_aa, gs_div_aa, C138_op; cbn [sigma sigc0 sigc1 alpha]. field. }
  split; [unfold jacobi_aa, masked, no_mask, jacobi_div_aa, adotx, C138_op; cbn [sigma sigc0 sigc1 alpha]; field|]. split.
  { constructor; [intros [E|[]]; discriminate|]. constructor; [intros []|constructor]. }
  intros i j _. unfold no_mask, adotx, C138_op. cbn [sigma sigc0 sigc1 alpha]. lra.
Qed.

(** * C139: transfer between grids *)
(** The restriction is, up to the factor four of the cell areas, the transpose of the bilinear interpolation: summation by parts over a periodic domain.
    It keeps constants and a quarter of the sum. *)
Theorem C139_restriction (n m : nat) (fine c : field) : periodic (2 * n) (2 * m) fine -> periodic n m c ->
  4 * total n m (fun i j => restriction no_mask fine i j * c i j) = total (2 * n) (2 * m) (fun i j => fine i j * bilinear c i j) /\
  4 * total n m (restriction no_mask fine) = total (2 * n) (2 * m) fine /\
  (forall k, (forall i j, fine i j = k) -> forall i j, restriction no_mask fine i j = k) /\
  (forall msk i j, restriction msk fine i j = if msk (2 * i)%Z (2 * j)%Z then 0 else restriction no_mask fine i j).
Proof.
  intros Hf Hc. split; [apply adjoint; assumption|]. split.
  - rewrite <- (total_ext n m (fun i j => restriction no_mask fine i j * (fun _ _ => 1) i j)) by (intros i j; ring). rewrite (adjoint n m fine (fun _ _ => 1)).
    + apply total_ext. intros i j. unfold bilinear. field.
    + exact Hf.
    + intros i j. auto.
  - split.
    + intros k H i j. unfold restriction, no_mask. rewrite !H. field.
    + intros msk i j. unfold restriction, no_mask. replace (i * 2)%Z with (2 * i)%Z by lia. replace (j * 2)%Z with (2 * j)%Z by lia. reflexivity.
Qed.
Print Assumptions C139_restriction.

(** The interpolation adds the coarse value in the nodes of the coarse grid, leaves masked nodes alone, and never leaves the range of the coarse values around a node. *)
Theorem C139_interpolation (msk : mask) (sigx sigy crse fine : field) (i j : Z) (lo hi : R) :
  (forall i j, 0 < sigx i j) -> (forall i j, 0 < sigy i j) ->
  (forall a b, (i / 2 <= a <= (i + 1) / 2)%Z -> (j / 2 <= b <= (j + 1) / 2)%Z -> lo <= crse a b <= hi) ->
  (msk i j = true -> interpadd msk sigx sigy crse fine i j = fine i j) /\
  (msk i j = false -> fine i j + lo <= interpadd msk sigx sigy crse fine i j <= fine i j + hi) /\
  (msk i j = false -> Z.Even i -> Z.Even j -> interpadd msk sigx sigy crse fine i j = fine i j + crse (i / 2)%Z (j / 2)%Z).
Proof.
  intros Hx Hy Hr. split; [intros M; unfold interpadd; rewrite M; reflexivity|]. split.
  - intros M. destruct (Z.Even_or_Odd i) as [[k Ek]|[k Ek]], (Z.Even_or_Odd j) as [[q Eq]|[q Eq]]; subst i j;
      destruct (interp_cases msk sigx sigy crse fine k q) as (C1 & C2 & C3 & C4); rewrite ?half_even, ?half_odd, ?half_next in Hr.
    + rewrite (C1 M). assert (lo <= crse k q <= hi) by (apply Hr; lia). lra.
    + rewrite (C3 M). assert (lo <= interp_line_y crse sigy (2 * k) (2 * q + 1) k q <= hi); [|lra]. apply line_y_bounds; [exact Hy| |]; apply Hr; lia.
    + rewrite (C2 M). assert (lo <= interp_line_x crse sigx (2 * k + 1) (2 * q) k q <= hi); [|lra]. apply line_x_bounds; [exact Hx| |]; apply Hr; lia.
    + rewrite (C4 M). assert (lo <= interp_face_xy crse sigx sigy (2 * k + 1) (2 * q + 1) k q <= hi); [|lra]. apply face_bounds; [exact Hx|exact Hy| | | |]; apply Hr; lia.
  - intros M [k Ek] [q Eq]. subst i j. destruct (interp_cases msk sigx sigy crse fine k q) as (C1 & _). rewrite (C1 M), !half_even. reflexivity.
Qed.
Print Assumptions C139_interpolation.

(** Between two coarse nodes the interpolated value lets as much flow in from the one as flows out to the other,
    with the coefficients of the two fine cells on either side. *)
Theorem C139_balance (sigx sigy crse : field) (k q : Z) : (forall i j, 0 < sigx i j) -> (forall i j, 0 < sigy i j) ->
  let v := interpadd no_mask sigx sigy crse (fun _ _ => 0) in
  (sigx (2 * k)%Z (2 * q - 1)%Z + sigx (2 * k)%Z (2 * q)%Z) * (v (2 * k + 1)%Z (2 * q)%Z - crse k q)
    = (sigx (2 * k + 1)%Z (2 * q - 1)%Z + sigx (2 * k + 1)%Z (2 * q)%Z) * (crse (k + 1)%Z q - v (2 * k + 1)%Z (2 * q)%Z) /\
  (sigy (2 * k - 1)%Z (2 * q)%Z + sigy (2 * k)%Z (2 * q)%Z) * (v (2 * k)%Z (2 * q + 1)%Z - crse k q)
    = (sigy (2 * k - 1)%Z (2 * q + 1)%Z + sigy (2 * k)%Z (2 * q + 1)%Z) * (crse k (q + 1)%Z - v (2 * k)%Z (2 * q + 1)%Z).
Proof.
  intros Hx Hy v. destruct (interp_cases no_mask sigx sigy crse (fun _ _ => 0) k q) as (_ & C2 & C3 & _). unfold v.
  rewrite (C2 eq_refl), (C3 eq_refl). unfold interp_line_x, interp_line_y. cbv zeta.
  replace (2 * k + 1 - 1)%Z with (2 * k)%Z by lia. replace (2 * q + 1 - 1)%Z with (2 * q)%Z by lia.
  pose proof (Hx (2 * k)%Z (2 * q - 1)%Z). pose proof (Hx (2 * k)%Z (2 * q)%Z). pose proof (Hx (2 * k + 1)%Z (2 * q - 1)%Z). pose proof (Hx (2 * k + 1)%Z (2 * q)%Z).
  pose proof (Hy (2 * k - 1)%Z (2 * q)%Z). pose proof (Hy (2 * k)%Z (2 * q)%Z). pose proof (Hy (2 * k - 1)%Z (2 * q + 1)%Z). pose proof (Hy (2 * k)%Z (2 * q + 1)%Z).
  split; field; lra.
Qed.
Print Assumptions C139_balance.

(** With constant coefficients the interpolation is bilinear. *)
Theorem C139_bilinear (s : R) (crse fine : field) (i j : Z) : s <> 0 ->
  interpadd no_mask (fun _ _ => s) (fun _ _ => s) crse fine i j = fine i j + bilinear crse i j.
Proof.
  intros Hs. destruct (Z.Even_or_Odd i) as [[k Ek]|[k Ek]], (Z.Even_or_Odd j) as [[q Eq]|[q Eq]]; subst i j;
    destruct (interp_cases no_mask (fun _ _ => s) (fun _ _ => s) crse fine k q) as (C1 & C2 & C3 & C4); unfold bilinear; rewrite ?half_even, ?half_odd, ?half_next.
  - rewrite (C1 eq_refl). field.
  - rewrite (C3 eq_refl). unfold interp_line_y. cbv zeta. field. lra.
  - rewrite (C2 eq_refl). unfold interp_line_x. cbv zeta. field. lra.
  - rewrite (C4 eq_refl). unfold interp_face_xy, interp_line_x, interp_line_y. cbv zeta. field. lra.
Qed.
Print Assumptions C139_bilinear.

(** The coefficients of a coarser grid: two fine cells side by side conduct like resistors in series, the two rows or columns like resistors in parallel.
    The result lies between the smallest and the largest of the four, so constants are kept and positive coefficients stay positive. *)
Theorem C139_coefficients (fine : field) (i j : Z) (lo hi : R) : 0 < lo ->
  (forall a b, (2 * i <= a <= 2 * i + 1)%Z -> (2 * j <= b <= 2 * j + 1)%Z -> lo <= fine a b <= hi) ->
  lo <= avgdown_coeff_x fine i j <= hi /\ lo <= avgdown_coeff_y fine i j <= hi /\
  1 / avgdown_coeff_x fine i j = 1 / (fine (2 * i)%Z (2 * j)%Z + fine (2 * i)%Z (2 * j + 1)%Z) + 1 / (fine (2 * i + 1)%Z (2 * j)%Z + fine (2 * i + 1)%Z (2 * j + 1)%Z) /\
  1 / avgdown_coeff_y fine i j = 1 / (fine (2 * i)%Z (2 * j)%Z + fine (2 * i + 1)%Z (2 * j)%Z) + 1 / (fine (2 * i)%Z (2 * j + 1)%Z + fine (2 * i + 1)%Z (2 * j + 1)%Z).
Proof.
  intros Hlo H. 
  pose proof (H (2 * i)%Z (2 * j)%Z ltac:(lia) ltac:(lia)) as A. pose proof (H (2 * i)%Z (2 * j + 1)%Z ltac:(lia) ltac:(lia)) as B.
  pose proof (H (2 * i + 1)%Z (2 * j)%Z ltac:(lia) ltac:(lia)) as C. pose proof (H (2 * i + 1)%Z (2 * j + 1)%Z ltac:(lia) ltac:(lia)) as D.
  assert (K : forall a b, 2 * lo <= a <= 2 * hi -> 2 * lo <= b <= 2 * hi -> lo <= a * b / (a + b) <= hi).
  { intros a b Ha Hb. assert (P : 0 < a + b) by lra. split; apply Rmult_le_reg_r with (a + b); try exact P; unfold Rdiv; rewrite (Rmult_assoc (a * b)), Rinv_l, Rmult_1_r by lra.
    - assert (lo * a <= b / 2 * a) by (apply Rmult_le_compat_r; lra). assert (lo * b <= a / 2 * b) by (apply Rmult_le_compat_r; lra). lra.
    - assert (b / 2 * a <= hi * a) by (apply Rmult_le_compat_r; lra). assert (a / 2 * b <= hi * b) by (apply Rmult_le_compat_r; lra). lra. }
  unfold avgdown_coeff_x, avgdown_coeff_y. cbv zeta. split; [apply K; lra|]. split; [apply K; lra|]. split; field; repeat split; lra.
Qed.
Print Assumptions C139_coefficients.

(** Coefficients 1 and 3 on the two sides of a fine node: three quarters of the way to the second coarse value; 2 and 6 in series give 3/2 *)
Example C139_example :
  let s : field := fun i _ => if Z.eqb i 0 then 1 else 3 in
  interpadd no_mask s s (fun i _ => if Z.eqb i 1 then 8 else 0) (fun _ _ => 0) 1%Z 0%Z = 6 /\ avgdown_coeff_x s 0%Z 0%Z = 3 / 2 /\
  (forall i j, 0 < s i j) /\ restriction no_mask (fun i j => if Z.eqb i 0 && Z.eqb j 0 then 16 else 0) 0%Z 0%Z = 4.
Proof.
  cbv zeta. split; [|split; [|split]].
  - unfold interpadd, no_mask. change (1 / 2)%Z with 0%Z. change (0 / 2)%Z with 0%Z. cbn [Z.eqb Z.mul negb andb]. unfold interp_line_x. cbv zeta. change (1 - 1)%Z with 0%Z. change (0 + 1)%Z with 1%Z. change (Z.eqb 0 0) with true. change (Z.eqb 1 0) with false. change (Z.eqb 0 1) with false. change (Z.eqb 1 1) with true. cbv iota. field.
  - unfold avgdown_coeff_x. cbn [Z.mul Z.add Z.eqb]. field.
  - intros i j. destruct (Z.eqb i 0); lra.
  - unfold restriction, no_mask. cbn. field.
Qed.

(** * C140: walls *)
(** After filling, every point next to a wall has the value of its mirror image, also in corners and whatever the order in which the points are visited, and all others have kept theirs. *)
Theorem C140_mirror (vbx domain : box) (offset : Z) (bflo bfhi : bool -> bool) (points : list (Z * Z)) (a : field) :
  (0 <= offset <= 1)%Z -> (forall d, (blo domain d + offset <= bhi domain d)%Z) ->
  (forall d, (blo domain d <= blo vbx d)%Z /\ (bhi vbx d <= bhi domain d)%Z) ->
  (forall i j, In (i, j) points <-> (blo vbx true - 1 <= i <= bhi vbx true + 1)%Z /\ (blo vbx false - 1 <= j <= bhi vbx false + 1)%Z) ->
  forall i j, bc_doit vbx domain offset bflo bfhi points a i j =
    if Z.leb (blo vbx true - 1) i && Z.leb i (bhi vbx true + 1) && Z.leb (blo vbx false - 1) j && Z.leb j (bhi vbx false + 1)
    then a (mirror (blo domain true) (bhi domain true) offset (bflo true) (bfhi true) i) (mirror (blo domain false) (bhi domain false) offset (bflo false) (bfhi false) j)
    else a i j.
Proof.
  intros Ho Hd Hv Hp i j. pose proof (Hv true) as [V1 V2]. pose proof (Hv false) as [V3 V4].
  assert (Hr : forall x y, In (x, y) points -> (blo domain true - 1 <= x <= bhi domain true + 1)%Z /\ (blo domain false - 1 <= y <= bhi domain false + 1)%Z) by (intros x y Hxy; apply Hp in Hxy; lia).
  pose proof (fill_invariant domain offset bflo bfhi Ho Hd a points [] a Hr (fun x y => conj (fun F : In (x, y) [] => match F with end) (fun _ => eq_refl)) i j) as [F1 F2].
  destruct (Z.leb (blo vbx true - 1) i && Z.leb i (bhi vbx true + 1) && Z.leb (blo vbx false - 1) j && Z.leb j (bhi vbx false + 1)) eqn:E.
  - rewrite !andb_true_iff, !Z.leb_le in E. assert (Hi : In (i, j) points) by (apply Hp; lia). unfold bc_doit.
    destruct (strictly_contains (gdomain domain bflo bfhi) vbx) eqn:S1.
    + destruct (gdomain_mirror domain offset bflo bfhi i j) as [-> ->]; [|reflexivity].
      unfold strictly_contains in S1. unfold contains. rewrite !andb_true_iff, !Z.ltb_lt in S1. rewrite !andb_true_iff, !Z.leb_le. lia.
    + apply F1, Hi.
  - assert (Hi : ~ In (i, j) points).
    { intros Hi. apply Hp in Hi. assert (X : (Z.leb (blo vbx true - 1) i && Z.leb i (bhi vbx true + 1) && Z.leb (blo vbx false - 1) j && Z.leb j (bhi vbx false + 1)) = true) by (rewrite !andb_true_iff, !Z.leb_le; lia). congruence. }
    unfold bc_doit. destruct (strictly_contains _ vbx); [reflexivity|].
    apply F2, Hi.
Qed.
Print Assumptions C140_mirror.

(** The sides are scaled once for every wall on which a node lies, independently of how the domain is cut into boxes; dividing takes the scaling back. *)
Theorem C140_neumann (bx nddom : box) (wlo whi : bool -> bool) (rhs : field) (i j : Z) :
  (forall d, (blo nddom d <= blo bx d)%Z /\ (blo bx d <= bhi bx d)%Z /\ (bhi bx d <= bhi nddom d)%Z) ->
  impose_neumann bx nddom wlo whi rhs i j = (if contains bx i j then rhs i j * wall_factor 2 nddom wlo whi i j else rhs i j) /\
  unimpose_neumann bx nddom wlo whi (impose_neumann bx nddom wlo whi rhs) i j = rhs i j.
Proof.
  intros H. unfold unimpose_neumann, impose_neumann. rewrite !scale_spec by exact H. split; [reflexivity|]. destruct (contains bx i j); [|reflexivity].
  unfold wall_factor. destruct (wlo true && _), (whi true && _), (wlo false && _), (whi false && _); field.
Qed.
Print Assumptions C140_neumann.

(** Nothing flows through the walls of a closed box: with the velocity zero behind the walls the right hand sides, weighted with the part of the cell around the node
    which lies in the box, have the sum zero. This is the condition for a solution of the pressure equation. *)
Theorem C140_compatible (n m : nat) (dx : bool -> R) (vel : bool -> field) :
  (forall d, dx d <> 0) ->
  (forall d i j, (i < 0 \/ Z.of_nat n <= i \/ j < 0 \/ Z.of_nat m <= j)%Z -> vel d i j = 0) ->
  let nodes := mkBox (fun _ => 0%Z) (fun d => if d then Z.of_nat n else Z.of_nat m) in
  let wall := fun _ : bool => true in
  total (n + 1) (m + 1) (fun i j => wall_factor (1 / 2) nodes wall wall i j * impose_neumann nodes nodes wall wall (compDivergence dx vel) i j) = 0.
Proof.
  intros Hdx Hv. cbv zeta. set (nodes := mkBox _ _). set (wall := fun _ : bool => true).
  assert (Hn : forall d, (blo nodes d <= blo nodes d)%Z /\ (blo nodes d <= bhi nodes d)%Z /\ (bhi nodes d <= bhi nodes d)%Z) by (intros []; cbn; lia).
  set (u := vel true) in *. set (w := vel false) in *.
  assert (E : total (n + 1) (m + 1) (fun i j => wall_factor (1 / 2) nodes wall wall i j * impose_neumann nodes nodes wall wall (compDivergence dx vel) i j) = total (n + 1) (m + 1) (compDivergence dx vel)).
  { apply total_ext_in. intros i j Hi Hj. unfold impose_neumann. rewrite scale_spec by exact Hn.
    replace (contains nodes i j) with true by (symmetry; unfold contains, nodes; cbn [blo bhi]; rewrite !andb_true_iff, !Z.leb_le; lia).
    unfold wall_factor. destruct (wall true && Z.eqb i (blo nodes true)), (wall true && Z.eqb i (bhi nodes true)), (wall false && Z.eqb j (blo nodes false)), (wall false && Z.eqb j (bhi nodes false)); field. }
  rewrite E. clear E. unfold total.
  rewrite (sum1_ext (n + 1) _ (fun i => (fun i => sum1 (m + 1) (fun j => 1 / 2 * (1 / dx true) * (u i (j - 1)%Z + u i j))) i + -1 * (fun i => sum1 (m + 1) (fun j => 1 / 2 * (1 / dx true) * (u i (j - 1)%Z + u i j))) (i - 1)%Z)).
  - rewrite (sum1_telescope (n + 1) (fun i => sum1 (m + 1) (fun j => 1 / 2 * (1 / dx true) * (u i (j - 1)%Z + u i j)))).
    rewrite (sum1_ext (m + 1) _ (fun _ => 0)) by (intros j; unfold u; rewrite !Hv by lia; ring).
    rewrite (sum1_ext (m + 1) (fun j => 1 / 2 * (1 / dx true) * (u (-1)%Z (j - 1)%Z + u (-1)%Z j)) (fun _ => 0)) by (intros j; unfold u; rewrite !Hv by lia; ring). lra.
  - intros i. cbv beta. rewrite <- sum1_lin.
    rewrite <- (Rplus_0_r (sum1 (m + 1) (fun j => 1 / 2 * (1 / dx true) * (u i (j - 1)%Z + u i j) + -1 * (1 / 2 * (1 / dx true) * (u (i - 1)%Z (j - 1)%Z + u (i - 1)%Z j))))).
    assert (T : sum1 (m + 1) (fun j => 1 / 2 * (1 / dx false) * (w (i - 1)%Z j + w i j) + -1 * (1 / 2 * (1 / dx false) * (w (i - 1)%Z (j - 1)%Z + w i (j - 1)%Z))) = 0).
    { rewrite (sum1_telescope (m + 1) (fun j => 1 / 2 * (1 / dx false) * (w (i - 1)%Z j + w i j))). unfold w. rewrite !Hv by lia. ring. }
    rewrite <- T. rewrite <- (Rmult_1_l (sum1 (m + 1) (fun j => 1 / 2 * (1 / dx false) * (w (i - 1)%Z j + w i j) + _))), <- sum1_lin.
    apply sum1_ext. intros j. unfold compDivergence. cbv zeta. fold u w. ring.
Qed.
Print Assumptions C140_compatible.

(** Cells 0..3 and 0..1 between walls: the ghost cell at the lower left takes the value of the cell (0, 0), the node at (-1, 5) that of (1, 3) *)
Example C140_example :
  mirror 0 3 0 true true (-1) = 0%Z /\ mirror 0 4 1 true true (-1) = 1%Z /\ mirror 0 4 1 true true 5 = 3%Z /\ mirror 0 4 1 false true (-1) = (-1)%Z /\
  bc_doit (mkBox (fun _ => 0%Z) (fun d => if d then 3%Z else 1%Z)) (mkBox (fun _ => 0%Z) (fun d => if d then 3%Z else 1%Z)) 0 (fun _ => true) (fun _ => true) [(-1, -1)%Z] (fun i j => IZR (10 * i + j)) (-1)%Z (-1)%Z = 0 /\
  wall_factor 2 (mkBox (fun _ => 0%Z) (fun _ => 4%Z)) (fun _ => true) (fun _ => true) 0%Z 4%Z = 4.
Proof.
  repeat split; try reflexivity; cbn.
  - unfold wall_factor. cbn. ring.
Qed.
