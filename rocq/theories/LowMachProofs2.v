(** Proofs about the backward and forward Euler steps of the solver for nearly incompressible flow. *)
From Coq Require Import List Reals ZArith Lra Lia Bool.
From Verif Require Import SplitModel LowMachModel LowMachSpec LowMachProofs.
Import ListNotations.
Local Open Scope R_scope.

Definition good (dx : bool -> R) : Prop := forall x, 0 < dx x.

(** * The discrete operators *)
Lemma divergence_spec (dx : bool -> R) (w : bool -> field) (i j : Z) : good dx ->
  compDivergence dx w i j = node_div dx (w true) (w false) i j.
Proof.
  intros H. pose proof (H true). pose proof (H false). unfold compDivergence, node_div. field. split; lra.
Qed.

Lemma fluxes_spec (o : linop) (dx : bool -> R) (p : field) (x : bool) (i j : Z) : good dx ->
  getFluxes o dx p x i j = - (sigma o i j * cell_grad dx p x i j).
Proof.
  intros H. pose proof (H true). pose proof (H false). unfold getFluxes, cell_grad. destruct x; field; lra.
Qed.

Lemma adotx_spec (o : linop) (dx : bool -> R) (x : field) (i j : Z) : good dx ->
  adotx o dx x i j =
  node_div dx (fun i j => sigma o i j * cell_grad dx x true i j + sigc0 o i j * cell_grad dx x false i j)
    (fun i j => sigma o i j * cell_grad dx x false i j + sigc1 o i j * cell_grad dx x true i j) i j + alpha o i j * x i j.
Proof.
  intros H. pose proof (H true). pose proof (H false). unfold adotx, node_div, cell_grad. cbv zeta.
  replace (i - 1 + 1)%Z with i by lia. replace (j - 1 + 1)%Z with j by lia. field. split; lra.
Qed.

Lemma node_div_lin (h : bool -> R) (a : R) (u v u' v' : field) (i j : Z) :
  node_div h (fun i j => u i j + a * u' i j) (fun i j => v i j + a * v' i j) i j = node_div h u v i j + a * node_div h u' v' i j.
Proof. unfold node_div, Rdiv. ring. Qed.

Lemma node_div_ext (h : bool -> R) (u v u' v' : field) (i j : Z) : (forall i j, u i j = u' i j) -> (forall i j, v i j = v' i j) ->
  node_div h u v i j = node_div h u' v' i j.
Proof. intros Hu Hv. unfold node_div. rewrite !Hu, !Hv. reflexivity. Qed.

Lemma grad_lin (h : bool -> R) (a : R) (p q : field) (x : bool) (i j : Z) :
  cell_grad h (fun i j => p i j + a * q i j) x i j = cell_grad h p x i j + a * cell_grad h q x i j.
Proof. unfold cell_grad, Rdiv. destruct x; ring. Qed.

Lemma total_plus (n m : nat) (g h : field) : total n m (fun i j => g i j + h i j) = total n m g + total n m h.
Proof.
  rewrite (total_ext n m _ (fun i j => g i j + 1 * h i j)) by (intros; ring). rewrite total_lin. ring.
Qed.
Lemma total_scal (n m : nat) (a : R) (g : field) : total n m (fun i j => a * g i j) = a * total n m g.
Proof.
  assert (Z0 : total n m (fun _ _ => 0) = 0).
  { pose proof (total_lin n m (-1) (fun _ _ => 0) (fun _ _ => 0)) as E. cbn beta in E.
    rewrite (total_ext n m _ (fun _ _ => 0)) in E by (intros; ring). lra. }
  rewrite (total_ext n m _ (fun i j => 0 + a * g i j)) by (intros; ring). rewrite (total_lin n m a (fun _ _ => 0) g), Z0. ring.
Qed.

(** A product moved by one cell in some directions sums up to the same *)
Lemma shift_cancel (n m : nat) (w : field) (a b : bool) (s : R) : periodic n m w ->
  total n m (fun i j => s * (w (if a then i - 1 else i)%Z (if b then j - 1 else j)%Z - w i j)) = 0.
Proof.
  intros H. rewrite total_scal.
  rewrite (total_ext n m _ (fun i j => w (if a then i - 1 else i)%Z (if b then j - 1 else j)%Z + -1 * w i j)) by (intros; ring).
  rewrite total_lin.
  assert (E : total n m (fun i j => w (if a then i - 1 else i)%Z (if b then j - 1 else j)%Z) = total n m w).
  { destruct a, b; [| | |reflexivity].
    - rewrite <- (total_shift_x n m w H). apply (total_shift_y n m (fun i j => w (i - 1)%Z j)).
      intros i j. rewrite (periodic_x' n m w 1 i j H), (periodic_y0 n m w (i - 1) j H). auto.
    - apply total_shift_x, H.
    - apply total_shift_y, H. }
  rewrite E. ring.
Qed.

Lemma shift_cancel2 (n m : nat) (u x : field) (a b : bool) (s : R) : periodic n m u -> periodic n m x ->
  total n m (fun i j => s * (u (if a then i - 1 else i)%Z (if b then j - 1 else j)%Z * x i j
                             - u i j * x (if a then i + 1 else i)%Z (if b then j + 1 else j)%Z)) = 0.
Proof.
  intros Hu Hx.
  pose proof (shift_cancel n m (fun i j => u i j * x (if a then i + 1 else i)%Z (if b then j + 1 else j)%Z) a b s) as E. cbn beta in E.
  rewrite <- E at 1.
  - apply total_ext. intros i j. f_equal. f_equal. f_equal. destruct a, b; f_equal; lia.
  - intros i j. destruct a, b; rewrite ?(periodic_x n m x 1 i _ Hx), ?(periodic_y n m x 1 _ j Hx), ?(periodic_x0 n m x i _ Hx), ?(periodic_y0 n m x _ j Hx),
      ?(periodic_x0 n m u i _ Hu), ?(periodic_y0 n m u _ j Hu); auto.
Qed.

(** Summation by parts *)
Lemma by_parts (n m : nat) (h : bool -> R) (u v x : field) : periodic n m u -> periodic n m v -> periodic n m x ->
  total n m (fun i j => node_div h u v i j * x i j) = - total n m (fun i j => u i j * cell_grad h x true i j + v i j * cell_grad h x false i j).
Proof.
  intros Hu Hv Hx.
  assert (E : total n m (fun i j => node_div h u v i j * x i j + (u i j * cell_grad h x true i j + v i j * cell_grad h x false i j)) = 0);
    [|rewrite (total_plus n m (fun i j => node_div h u v i j * x i j)) in E; lra].
  rewrite (total_ext n m _ (fun i j =>
    / 2 / h true * (u i (j - 1)%Z * x i j - u i j * x i (j + 1)%Z)
    + (- / 2 / h true * (u (i - 1)%Z j * x i j - u i j * x (i + 1)%Z j)
    + (- / 2 / h true * (u (i - 1)%Z (j - 1)%Z * x i j - u i j * x (i + 1)%Z (j + 1)%Z)
    + (/ 2 / h false * (v (i - 1)%Z j * x i j - v i j * x (i + 1)%Z j)
    + (- / 2 / h false * (v i (j - 1)%Z * x i j - v i j * x i (j + 1)%Z)
    + - / 2 / h false * (v (i - 1)%Z (j - 1)%Z * x i j - v i j * x (i + 1)%Z (j + 1)%Z)))))));
    [|intros i j; unfold node_div, cell_grad, Rdiv; ring].
  rewrite !total_plus.
  pose proof (shift_cancel2 n m u x false true (/ 2 / h true) Hu Hx) as E1.
  pose proof (shift_cancel2 n m u x true false (- / 2 / h true) Hu Hx) as E2.
  pose proof (shift_cancel2 n m u x true true (- / 2 / h true) Hu Hx) as E3.
  pose proof (shift_cancel2 n m v x true false (/ 2 / h false) Hv Hx) as E4.
  pose proof (shift_cancel2 n m v x false true (- / 2 / h false) Hv Hx) as E5.
  pose proof (shift_cancel2 n m v x true true (- / 2 / h false) Hv Hx) as E6.
  cbv iota in *. lra.
Qed.

Lemma grad_periodic (n m : nat) (h : bool -> R) (p : field) (x : bool) : periodic n m p -> periodic n m (cell_grad h p x).
Proof.
  intros H i j. unfold cell_grad.
  rewrite !(periodic_x n m p 1 i _ H), !(periodic_y n m p 1 _ j H), !(periodic_x0 n m p i _ H), !(periodic_y0 n m p _ j H). auto.
Qed.

Lemma node_div_periodic (n m : nat) (h : bool -> R) (u v : field) : periodic n m u -> periodic n m v -> periodic n m (node_div h u v).
Proof.
  intros Hu Hv i j. unfold node_div.
  rewrite !(periodic_x' n m u 1 i _ Hu), !(periodic_y' n m u 1 _ j Hu), !(periodic_x0 n m u i _ Hu), !(periodic_y0 n m u _ j Hu).
  rewrite !(periodic_x' n m v 1 i _ Hv), !(periodic_y' n m v 1 _ j Hv), !(periodic_x0 n m v i _ Hv), !(periodic_y0 n m v _ j Hv). auto.
Qed.

Lemma node_average_periodic (n m : nat) (q : field) : periodic n m q -> periodic n m (AverageCellToNode q).
Proof.
  intros H i j. unfold AverageCellToNode.
  rewrite !(periodic_x' n m q 1 i _ H), !(periodic_y' n m q 1 _ j H), !(periodic_x0 n m q i _ H), !(periodic_y0 n m q _ j H). auto.
Qed.

Lemma faces_periodic (n m : nat) (q : field) (x : bool) : periodic n m q -> periodic n m (AverageCellToFace q x).
Proof.
  intros H i j. unfold AverageCellToFace. destruct x;
  rewrite !(periodic_x' n m q 1 i _ H), ?(periodic_y' n m q 1 _ j H), ?(periodic_x n m q 1 i _ H), ?(periodic_y n m q 1 _ j H), 
    !(periodic_x0 n m q i _ H), !(periodic_y0 n m q _ j H), ?(periodic_y' n m q 1 _ j H); auto.
Qed.

Lemma Pv_periodic (n m : nat) (l : level) (x : bool) : level_periodic n m l -> periodic n m (Pv_cells l x).
Proof.
  intros (H1 & H2 & H3 & H4 & H5) i j. unfold Pv_cells.
  destruct (H1 i j) as [-> ->], (H4 i j) as [-> ->], x; [destruct (H2 i j) as [-> ->]|destruct (H3 i j) as [-> ->]]; auto.
Qed.

(** Where the energy of a periodic solution of the homogeneous equation vanishes *)
Lemma null_space (n m : nat) (dx : bool -> R) (o : linop) (d : field) : (0 < n)%nat -> (0 < m)%nat -> good dx ->
  op_periodic n m o -> periodic n m d -> (forall i j, 0 < sigma o i j) -> (forall i j, sigc1 o i j = - sigc0 o i j) -> (forall i j, alpha o i j <= 0) ->
  (forall i j, adotx o dx d i j = 0) ->
  forall i j, cell_grad dx d true i j = 0 /\ cell_grad dx d false i j = 0 /\ (alpha o i j < 0 -> d i j = 0).
Proof.
  intros Hn Hm Hdx (P1 & P2 & P3 & P4) Hd Hs Hc Ha Hz.
  pose proof (fun x => grad_periodic n m dx d x Hd) as Hg.
  set (U := fun i j => sigma o i j * cell_grad dx d true i j + sigc0 o i j * cell_grad dx d false i j).
  set (V := fun i j => sigma o i j * cell_grad dx d false i j + sigc1 o i j * cell_grad dx d true i j).
  assert (HU : periodic n m U).
  { intros i j. unfold U. destruct (P1 i j) as [-> ->], (P2 i j) as [-> ->], (Hg true i j) as [-> ->], (Hg false i j) as [-> ->]. auto. }
  assert (HV : periodic n m V).
  { intros i j. unfold V. destruct (P1 i j) as [-> ->], (P3 i j) as [-> ->], (Hg true i j) as [-> ->], (Hg false i j) as [-> ->]. auto. }
  set (E := fun i j => sigma o i j * (cell_grad dx d true i j * cell_grad dx d true i j + cell_grad dx d false i j * cell_grad dx d false i j)
                       + - alpha o i j * (d i j * d i j)).
  assert (HE : forall i j, 0 <= E i j).
  { intros i j. unfold E. apply Rplus_le_le_0_compat; apply Rmult_le_pos; try (apply Rlt_le, Hs).
    - apply Rplus_le_le_0_compat; apply Rle_0_sqr.
    - specialize (Ha i j). lra.
    - apply Rle_0_sqr. }
  assert (T : total n m E = 0).
  { pose proof (by_parts n m dx U V d HU HV Hd) as B.
    rewrite (total_ext n m (fun i j => node_div dx U V i j * d i j) (fun i j => - alpha o i j * (d i j * d i j))) in B.
    2:{ intros i j. specialize (Hz i j). rewrite adotx_spec in Hz by exact Hdx. fold U V in Hz.
        replace (node_div dx U V i j) with (- (alpha o i j * d i j)) by lra. ring. }
    rewrite (total_ext n m (fun i j => U i j * _ + _)
      (fun i j => sigma o i j * (cell_grad dx d true i j * cell_grad dx d true i j + cell_grad dx d false i j * cell_grad dx d false i j))) in B.
    2:{ intros i j. unfold U, V. rewrite Hc. ring. }
    unfold E. rewrite total_plus. lra. }
  assert (PE : periodic n m E).
  { intros i j. unfold E. destruct (P1 i j) as [-> ->], (P4 i j) as [-> ->], (Hd i j) as [-> ->], (Hg true i j) as [-> ->], (Hg false i j) as [-> ->]. auto. }
  assert (Z0 : forall i j, E i j = 0).
  { assert (X : forall (k : nat) i j, E (i + Z.of_nat k * Z.of_nat n)%Z j = E i j).
    { induction k as [|k IH]; intros i j; [f_equal; lia|].
      replace (i + Z.of_nat (S k) * Z.of_nat n)%Z with ((i + Z.of_nat k * Z.of_nat n) + Z.of_nat n)%Z by lia. rewrite (proj1 (PE _ j)). apply IH. }
    assert (Y : forall (k : nat) i j, E i (j + Z.of_nat k * Z.of_nat m)%Z = E i j).
    { induction k as [|k IH]; intros i j; [f_equal; lia|].
      replace (j + Z.of_nat (S k) * Z.of_nat m)%Z with ((j + Z.of_nat k * Z.of_nat m) + Z.of_nat m)%Z by lia. rewrite (proj2 (PE i _)). apply IH. }
    assert (X' : forall i j, E (i mod Z.of_nat n)%Z j = E i j).
    { intros i j. pose proof (Z.div_mod i (Z.of_nat n) ltac:(lia)) as Dv. destruct (Z_le_gt_dec 0 (i / Z.of_nat n)) as [ge|lt].
      - rewrite <- (X (Z.to_nat (i / Z.of_nat n)) (i mod Z.of_nat n)%Z j). f_equal. lia.
      - rewrite <- (X (Z.to_nat (- (i / Z.of_nat n))) i j). f_equal. lia. }
    assert (Y' : forall i j, E i (j mod Z.of_nat m)%Z = E i j).
    { intros i j. pose proof (Z.div_mod j (Z.of_nat m) ltac:(lia)) as Dv. destruct (Z_le_gt_dec 0 (j / Z.of_nat m)) as [ge|lt].
      - rewrite <- (Y (Z.to_nat (j / Z.of_nat m)) i (j mod Z.of_nat m)%Z). f_equal. lia.
      - rewrite <- (Y (Z.to_nat (- (j / Z.of_nat m))) i j). f_equal. lia. }
    intros i j. rewrite <- X', <- Y'. apply (total_zero n m E HE T); apply Z.mod_pos_bound; lia. }
  intros i j. specialize (Z0 i j). unfold E in Z0. specialize (Hs i j). specialize (Ha i j).
  set (a := cell_grad dx d true i j) in *. set (b := cell_grad dx d false i j) in *.
  pose proof (Rle_0_sqr a) as A1. pose proof (Rle_0_sqr b) as B1. pose proof (Rle_0_sqr (d i j)) as D1. unfold Rsqr in *.
  assert (S1 : 0 <= sigma o i j * (a * a + b * b)) by (apply Rmult_le_pos; lra).
  assert (S2 : 0 <= - alpha o i j * (d i j * d i j)) by (apply Rmult_le_pos; lra).
  assert (S3 : a * a + b * b = 0).
  { assert (W : sigma o i j * (a * a + b * b) = 0) by lra. apply Rmult_integral in W as [W|W]; lra. }
  split; [|split].
  - assert (W : a * a = 0) by lra. apply Rmult_integral in W as [W|W]; exact W.
  - assert (W : b * b = 0) by lra. apply Rmult_integral in W as [W|W]; exact W.
  - intros An. assert (W : - alpha o i j * (d i j * d i j) = 0) by lra.
    apply Rmult_integral in W as [W|W]; [lra|]. apply Rmult_integral in W as [W|W]; exact W.
Qed.

(** * The backward step *)
Lemma rotate_fields (p : parameters) (dt : R) (l : level) :
  l_density (rotate_backward p dt l) = l_density l /\ l_PTdensity (rotate_backward p dt l) = l_PTdensity l /\
  l_PTinverse (rotate_backward p dt l) = l_PTinverse l.
Proof. auto. Qed.

Lemma backward_cases (solve : solver) (p : parameters) (dt : R) (dx : bool -> R) (o : linop) (l : level) (pi_old : field) (l' : level) (o' : linop) (pi : field) :
  DoEulerBackward solve p dt dx o l pi_old = Some (l', o', pi) ->
  o' = backward_op p dt (rotate_backward p dt l) o /\
  solve o' (backward_rhs p dt dx (rotate_backward p dt l) pi_old) = Some pi /\
  l' = correct_momentum p dt dx o' pi (rotate_backward p dt l).
Proof.
  unfold DoEulerBackward. cbv zeta. destruct (solve _ _) as [q|] eqn:E; intros H; inversion H; subst. auto.
Qed.

Lemma op_cross (p : parameters) (dt : R) (l : level) (o : linop) (i j : Z) :
  let o' := backward_op p dt l o in
  sigma o' i j = c_p p * dt / (1 + (dt * f p) ^ 2) * l_PTdensity l i j / l_PTinverse l i j /\
  sigc0 o' i j = dt * f p * sigma o' i j /\ sigc1 o' i j = - (dt * f p * sigma o' i j) /\
  (0 < alpha_p p -> alpha o' i j = diagfac_nodes p dt l i j) /\ (~ 0 < alpha_p p -> alpha o' i j = alpha o i j).
Proof.
  cbv zeta. unfold backward_op. cbv zeta. destruct (Rlt_dec 0 (alpha_p p)); cbn [setSigmaCross setAlpha setSigma sigma sigc0 sigc1 alpha];
    repeat split; try ring; intros; tauto.
Qed.

Lemma diagfac_spec (p : parameters) (dt : R) (l : level) (i j : Z) : dt <> 0 -> gamma p <> 1 ->
  diagfac_nodes p dt l i j = - (alpha_p p * Msq p / ((gamma p - 1) * dt) * node_mean (fun i j => Rpower (l_PTdensity l i j) (2 - gamma p)) i j).
Proof. intros H G. unfold diagfac_nodes, AverageCellToNode, node_mean. field. split; lra. Qed.

Lemma sq1 (x : R) : 0 < 1 + x ^ 2.
Proof. pose proof (Rle_0_sqr x). unfold Rsqr in *. replace (x ^ 2) with (x * x) by ring. lra. Qed.

Lemma backward_momentum (solve : solver) (p : parameters) (dt : R) (dx : bool -> R) (o : linop) (l : level) (pi_old : field) (l' : level) (o' : linop) (pi : field) :
  good dx -> k2 p = 1 \/ f p = 0 -> DoEulerBackward solve p dt dx o l pi_old = Some (l', o', pi) ->
  forall i j, l_PTinverse l i j <> 0 ->
  l_momentum0 l' i j = l_momentum0 l i j + dt * f p * l_momentum1 l' i j - dt * c_p p * l_PTdensity l i j * cell_grad dx pi true i j /\
  l_momentum1 l' i j = l_momentum1 l i j - dt * f p * l_momentum0 l' i j - dt * c_p p * l_PTdensity l i j * cell_grad dx pi false i j /\
  l_density l' i j = l_density l i j /\ l_PTdensity l' i j = l_PTdensity l i j /\ l_PTinverse l' i j = l_PTinverse l i j.
Proof.
  intros Hdx Hk H i j Hchi. apply backward_cases in H as (Eo & _ & El). 
  assert (S : sigma o' i j = c_p p * dt / (1 + (dt * f p) ^ 2) * l_PTdensity l i j / l_PTinverse l i j).
  { rewrite Eo. apply (op_cross p dt (rotate_backward p dt l) o i j). }
  pose proof (sq1 (dt * f p)) as Q.
  rewrite El. unfold correct_momentum. cbv zeta.
  cbn [l_density l_momentum0 l_momentum1 l_PTdensity l_PTinverse rotate_backward]. unfold KCross.
  rewrite !fluxes_spec by exact Hdx. rewrite S.
  assert (HF : k2 p = 1 \/ dt * f p = 0) by (destruct Hk as [Hk|Hk]; [auto|right; rewrite Hk; ring]).
  set (F := dt * f p) in *. replace (- dt * f p) with (- F) by (unfold F; ring). clearbody F.
  replace (1 + F ^ 2) with (1 + F * F) in * by ring.
  destruct HF as [-> | ->]; (split; [|split]; [| |auto]); field; try (split; lra || exact Hchi); exact Hchi.
Qed.

Lemma backward_pressure (solve : solver) (p : parameters) (dt : R) (dx : bool -> R) (o : linop) (l : level) (pi_old : field) (l' : level) (o' : linop) (pi : field) :
  good dx -> k2 p = 1 \/ f p = 0 -> admissible l -> DoEulerBackward solve p dt dx o l pi_old = Some (l', o', pi) ->
  forall i j, 
  node_div dx (P_velocity l' true) (P_velocity l' false) i j =
  (backward_rhs p dt dx (rotate_backward p dt l) pi_old i j - adotx o' dx pi i j) + alpha o' i j * pi i j - diagfac_nodes p dt l i j * pi_old i j.
Proof.
  intros Hdx Hk Ha H i j. apply backward_cases in H as (Eo & _ & El).
  set (r := rotate_backward p dt l) in *.
  assert (S : forall i j, sigc0 o' i j = dt * f p * sigma o' i j /\ sigc1 o' i j = - (dt * f p * sigma o' i j)).
  { intros a b. rewrite Eo. split; apply (op_cross p dt r o a b). }
  assert (V : forall (x : bool) a b, P_velocity l' x a b = Pv_cells r x a b + -1 *
    (sigma o' a b * cell_grad dx pi x a b + (if x then sigc0 o' a b else sigc1 o' a b) * cell_grad dx pi (negb x) a b)).
  { intros x a b. destruct (Ha a b) as (A1 & A2 & A3). unfold P_velocity, Pv_cells. rewrite El. unfold correct_momentum. cbv zeta.
    cbn [l_density l_momentum0 l_momentum1 l_PTdensity l_PTinverse].
    unfold KCross. rewrite !fluxes_spec by exact Hdx. rewrite (proj1 (S a b)), (proj2 (S a b)).
    change (l_density r a b) with (l_density l a b). change (l_PTdensity r a b) with (l_PTdensity l a b).
    change (l_PTinverse r a b) with (l_PTinverse l a b). rewrite A3. destruct Hk as [-> | ->]; destruct x; cbn [negb]; field; lra. }
  rewrite (node_div_ext dx _ _ _ _ i j (V true) (V false)). cbn [negb].
  rewrite (node_div_lin dx (-1) (Pv_cells r true) (Pv_cells r false)
    (fun a b => sigma o' a b * cell_grad dx pi true a b + sigc0 o' a b * cell_grad dx pi false a b)
    (fun a b => sigma o' a b * cell_grad dx pi false a b + sigc1 o' a b * cell_grad dx pi true a b)).
  rewrite adotx_spec by exact Hdx. unfold backward_rhs. rewrite divergence_spec by exact Hdx.
  change (diagfac_nodes p dt r i j) with (diagfac_nodes p dt l i j). ring.
Qed.

(** * Periods *)
Lemma rotate_periodic (n m : nat) (p : parameters) (dt : R) (l : level) : level_periodic n m l -> level_periodic n m (rotate_backward p dt l).
Proof.
  intros (H1 & H2 & H3 & H4 & H5). unfold rotate_backward. cbv zeta. repeat split; cbn [l_density l_momentum0 l_momentum1 l_PTdensity l_PTinverse]; try apply H1; try apply H4; try apply H5;
    unfold KCross; destruct (H2 i j) as [E1 E2], (H3 i j) as [E3 E4]; rewrite ?E1, ?E2, ?E3, ?E4; reflexivity.
Qed.

Lemma diagfac_periodic (n m : nat) (p : parameters) (dt : R) (l : level) : level_periodic n m l -> periodic n m (diagfac_nodes p dt l).
Proof.
  intros (H1 & H2 & H3 & H4 & H5). apply node_average_periodic. intros i j. destruct (H4 i j) as [-> ->]. auto.
Qed.

Lemma op_of_backward_periodic (n m : nat) (p : parameters) (dt : R) (l : level) (o : linop) : level_periodic n m l -> op_periodic n m o -> op_periodic n m (backward_op p dt l o).
Proof.
  intros Hl (O1 & O2 & O3 & O4). pose proof (diagfac_periodic n m p dt l Hl) as Hd. destruct Hl as (H1 & H2 & H3 & H4 & H5).
  unfold backward_op. cbv zeta.
  repeat split; destruct (Rlt_dec 0 (alpha_p p)); cbn [setSigmaCross setAlpha setSigma sigma sigc0 sigc1 alpha];
    destruct (H4 i j) as [E1 E2], (H5 i j) as [E3 E4]; rewrite ?E1, ?E2, ?E3, ?E4; try reflexivity; try apply Hd; apply O4.
Qed.

Lemma rhs_periodic (n m : nat) (p : parameters) (dt : R) (dx : bool -> R) (l : level) (pi : field) : good dx -> level_periodic n m l -> periodic n m pi ->
  periodic n m (backward_rhs p dt dx l pi).
Proof.
  intros Hdx Hl Hp. pose proof (diagfac_periodic n m p dt l Hl) as Hd. pose proof (node_div_periodic n m dx _ _ (Pv_periodic n m l true Hl) (Pv_periodic n m l false Hl)) as Hv.
  intros i j. unfold backward_rhs. rewrite !divergence_spec by exact Hdx.
  destruct (Hd i j) as [-> ->], (Hv i j) as [-> ->], (Hp i j) as [-> ->]. auto.
Qed.

Lemma correct_periodic (n m : nat) (p : parameters) (dt : R) (dx : bool -> R) (o : linop) (pi : field) (l : level) :
  good dx -> level_periodic n m l -> op_periodic n m o -> periodic n m pi -> level_periodic n m (correct_momentum p dt dx o pi l).
Proof.
  intros Hdx (H1 & H2 & H3 & H4 & H5) (O1 & O2 & O3 & O4) Hp. unfold correct_momentum. cbv zeta.
  pose proof (grad_periodic n m dx pi true Hp) as G1. pose proof (grad_periodic n m dx pi false Hp) as G2.
  repeat split; cbn [l_density l_momentum0 l_momentum1 l_PTdensity l_PTinverse]; try apply H1; try apply H4; try apply H5;
    unfold KCross; rewrite !fluxes_spec by exact Hdx;
    destruct (H2 i j) as [E1 E2], (H3 i j) as [E3 E4], (G1 i j) as [E5 E6], (G2 i j) as [E7 E8], (O1 i j) as [E9 E10], (H5 i j) as [E11 E12];
    rewrite ?E1, ?E2, ?E3, ?E4, ?E5, ?E6, ?E7, ?E8, ?E9, ?E10, ?E11, ?E12; reflexivity.
Qed.

Lemma backward_periodic (n m : nat) (solve : solver) (p : parameters) (dt : R) (dx : bool -> R) (eps : R) (o : linop) (l : level) (pi_old : field) (l' : level) (o' : linop) (pi : field) :
  good dx -> accurate n m dx eps solve -> level_periodic n m l -> op_periodic n m o -> periodic n m pi_old ->
  DoEulerBackward solve p dt dx o l pi_old = Some (l', o', pi) ->
  level_periodic n m l' /\ op_periodic n m o' /\ periodic n m pi /\
  forall i j, Rabs (adotx o' dx pi i j - backward_rhs p dt dx (rotate_backward p dt l) pi_old i j) <= eps.
Proof.
  intros Hdx Hs Hl Ho Hp H. apply backward_cases in H as (Eo & Es & El).
  pose proof (rotate_periodic n m p dt l Hl) as Hr.
  assert (Ho' : op_periodic n m o') by (rewrite Eo; apply op_of_backward_periodic; assumption).
  destruct (Hs _ _ _ Ho' (rhs_periodic n m p dt dx _ pi_old Hdx Hr Hp) Es) as [Hpi Hres].
  split; [|auto]. rewrite El. apply correct_periodic; assumption.
Qed.

(** The momentum depends on the gradient of the pressure only *)
Lemma correct_ext (p : parameters) (dt : R) (dx : bool -> R) (o : linop) (pi pi' : field) (l : level) (i j : Z) : good dx ->
  cell_grad dx pi true i j = cell_grad dx pi' true i j -> cell_grad dx pi false i j = cell_grad dx pi' false i j ->
  l_momentum0 (correct_momentum p dt dx o pi l) i j = l_momentum0 (correct_momentum p dt dx o pi' l) i j /\
  l_momentum1 (correct_momentum p dt dx o pi l) i j = l_momentum1 (correct_momentum p dt dx o pi' l) i j.
Proof.
  intros Hdx E1 E2. unfold correct_momentum. cbv zeta. cbn [l_momentum0 l_momentum1]. unfold KCross. rewrite !fluxes_spec by exact Hdx.
  rewrite E1, E2. auto.
Qed.

Lemma adotx_lin (o : linop) (dx : bool -> R) (a : R) (x y : field) (i j : Z) :
  adotx o dx (fun i j => x i j + a * y i j) i j = adotx o dx x i j + a * adotx o dx y i j.
Proof. unfold adotx. cbv zeta. ring. Qed.

Lemma op_positive (p : parameters) (dt : R) (l : level) (o : linop) (i j : Z) : 0 < c_p p -> 0 < dt -> admissible l -> 0 < sigma (backward_op p dt l o) i j.
Proof.
  intros Hc Hdt Ha. destruct (op_cross p dt l o i j) as (-> & _). destruct (Ha i j) as (A1 & A2 & ->).
  pose proof (sq1 (dt * f p)). apply Rdiv_lt_0_compat; [|apply Rdiv_lt_0_compat; assumption].
  apply Rmult_lt_0_compat; [|assumption]. apply Rdiv_lt_0_compat; [|assumption]. apply Rmult_lt_0_compat; assumption.
Qed.

Lemma node_mean_pos (q : field) (i j : Z) : (forall i j, 0 < q i j) -> 0 < node_mean q i j.
Proof. intros H. unfold node_mean. pose proof (H i j). pose proof (H (i - 1)%Z j). pose proof (H i (j - 1)%Z). pose proof (H (i - 1)%Z (j - 1)%Z). lra. Qed.

Lemma diagfac_sign (p : parameters) (dt : R) (l : level) (i j : Z) : 0 < dt -> 1 < gamma p -> 0 <= alpha_p p -> 0 <= Msq p ->
  diagfac_nodes p dt l i j <= 0 /\ (0 < alpha_p p -> 0 < Msq p -> diagfac_nodes p dt l i j < 0).
Proof.
  intros Hdt Hg Ha HM. rewrite diagfac_spec by lra.
  assert (Q : 0 < node_mean (fun i j => Rpower (l_PTdensity l i j) (2 - gamma p)) i j).
  { apply node_mean_pos. intros a b. unfold Rpower. apply exp_pos. }
  assert (D : 0 < (gamma p - 1) * dt) by (apply Rmult_lt_0_compat; lra).
  set (q := node_mean _ i j) in *. split.
  - assert (0 <= alpha_p p * Msq p / ((gamma p - 1) * dt) * q); [|lra].
    apply Rmult_le_pos; [|lra]. apply Rmult_le_pos; [apply Rmult_le_pos; lra|]. apply Rlt_le, Rinv_0_lt_compat, D.
  - intros Ha' HM'. assert (0 < alpha_p p * Msq p / ((gamma p - 1) * dt) * q); [|lra].
    apply Rmult_lt_0_compat; [|lra]. apply Rdiv_lt_0_compat; [apply Rmult_lt_0_compat; lra|exact D].
Qed.

(** Two exact solutions *)
Lemma backward_solutions (n m : nat) (p : parameters) (dt : R) (dx : bool -> R) (o : linop) (l : level) (rhs pi1 pi2 : field) :
  (0 < n)%nat -> (0 < m)%nat -> good dx -> admissible l -> level_periodic n m l -> op_periodic n m o -> periodic n m pi1 -> periodic n m pi2 ->
  0 < c_p p -> 0 < dt -> 1 < gamma p -> 0 <= alpha_p p -> 0 <= Msq p -> (alpha_p p = 0 -> forall i j, alpha o i j = 0) ->
  let o' := backward_op p dt l o in
  (forall i j, adotx o' dx pi1 i j = rhs i j) -> (forall i j, adotx o' dx pi2 i j = rhs i j) ->
  forall i j, cell_grad dx pi1 true i j = cell_grad dx pi2 true i j /\ cell_grad dx pi1 false i j = cell_grad dx pi2 false i j /\
    (0 < alpha_p p -> 0 < Msq p -> pi1 i j = pi2 i j).
Proof.
  intros Hn Hm Hdx Ha Hl Ho P1 P2 Hc Hdt Hg Hal HM H0. cbv zeta. intros S1 S2.
  assert (Al : forall i j, alpha (backward_op p dt l o) i j <= 0 /\ (0 < alpha_p p -> 0 < Msq p -> alpha (backward_op p dt l o) i j < 0)).
  { intros i j. destruct (op_cross p dt l o i j) as (_ & _ & _ & A1 & A2). destruct (Rlt_dec 0 (alpha_p p)) as [c|c].
    - rewrite (A1 c). apply diagfac_sign; assumption.
    - rewrite (A2 c), H0 by lra. split; [lra|]. intros; contradiction. }
  assert (N : forall i j, cell_grad dx (fun i j => pi1 i j + -1 * pi2 i j) true i j = 0 /\ cell_grad dx (fun i j => pi1 i j + -1 * pi2 i j) false i j = 0 /\
     (alpha (backward_op p dt l o) i j < 0 -> pi1 i j + -1 * pi2 i j = 0)).
  { apply (null_space n m dx (backward_op p dt l o) (fun i j => pi1 i j + -1 * pi2 i j) Hn Hm Hdx).
    - apply op_of_backward_periodic; assumption.
    - intros i j. destruct (P1 i j) as [-> ->], (P2 i j) as [-> ->]. auto.
    - intros i j. apply op_positive; assumption.
    - intros i j. destruct (op_cross p dt l o i j) as (_ & -> & -> & _). ring.
    - intros i j. apply Al.
    - intros i j. rewrite adotx_lin, S1, S2. ring. }
  intros i j. destruct (N i j) as (N1 & N2 & N3). rewrite grad_lin in N1, N2. split; [lra|]. split; [lra|].
  intros A1 A2. specialize (N3 (proj2 (Al i j) A1 A2)). lra.
Qed.
