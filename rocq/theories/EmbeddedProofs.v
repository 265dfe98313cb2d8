(** Lemmas for C98: rotations, mirror images and the Riemann problem at a wall. *)
From Coq Require Import List Reals Lra Lia ZArith Bool Psatz.
From Verif Require Import GasModel GasSpec GasProofs NewtonModel RiemannModel RiemannSpec RiemannProofs RiemannProofs2 RiemannProofs3 RiemannProofs4 RiemannProofs5 EmbeddedModel EmbeddedSpec.
Import ListNotations.
Local Open Scope R_scope.

Lemma inner_dot a b : inner a b = dot a b.
Proof. unfold inner. revert b. induction a as [|x a IH]; intros [|y b]; cbn; auto. rewrite IH. reflexivity. Qed.

(** ** The rotation of the normal to the first axis *)

Definition frame (n : list R) (Q Q' : list (list R)) : Prop :=
  (forall v, length v = length n -> length (mat_vec Q v) = length n /\ length (mat_vec Q' v) = length n) /\
  (forall v, length v = length n -> mat_vec Q' (mat_vec Q v) = v /\ mat_vec Q (mat_vec Q' v) = v) /\
  (forall a b, length a = length n -> length b = length n -> dot (mat_vec Q a) (mat_vec Q b) = dot a b) /\
  (forall v, length v = length n -> nth 0 (mat_vec Q v) 0 = dot v n).

Lemma rows2_eq (a b c d a' b' c' d' : R) : a = a' -> b = b' -> c = c' -> d = d' -> [[a; b]; [c; d]] = [[a'; b']; [c'; d']].
Proof. congruence. Qed.

Lemma list2_eq (a b a' b' : R) : a = a' -> b = b' -> [a; b] = [a'; b'].
Proof. congruence. Qed.

Lemma list3_eq (a b c a' b' c' : R) : a = a' -> b = b' -> c = c' -> [a; b; c] = [a'; b'; c'].
Proof. congruence. Qed.

Lemma rows3_eq (a b c d e f g h i a' b' c' d' e' f' g' h' i' : R) :
  a = a' -> b = b' -> c = c' -> d = d' -> e = e' -> f = f' -> g = g' -> h = h' -> i = i' ->
  [[a; b; c]; [d; e; f]; [g; h; i]] = [[a'; b'; c']; [d'; e'; f']; [g'; h'; i']].
Proof. congruence. Qed.

Lemma to_x_2 x y : x * x + y * y = 1 ->
  rotation_to_x [x; y] = [[x; y]; [- y; x]] /\ rotation_from_x [x; y] = [[x; - y]; [y; x]].
Proof.
  intros H. unfold rotation_to_x, rotation_from_x, MakeRotation2, opposite2. split.
  - destruct (Req_EM_T x (- (1))) as [E1|E1].
    + destruct (Req_EM_T y (- (0))) as [E2|E2]; cbn [rows2].
      * subst x y. apply rows2_eq; ring.
      * apply rows2_eq; ring.
    + cbn [rows2]. apply rows2_eq; ring.
  - destruct (Req_EM_T 1 (- x)) as [E1|E1].
    + destruct (Req_EM_T 0 (- y)) as [E2|E2]; cbn [rows2].
      * assert (x = Ropp 1) by lra. assert (y = 0) by lra. subst x y. apply rows2_eq; ring.
      * apply rows2_eq; ring.
    + cbn [rows2]. apply rows2_eq; ring.
Qed.

Lemma to_x_3 x y z : x * x + y * y + z * z = 1 ->
  (x = Ropp 1 /\ y = 0 /\ z = 0 /\ rotation_to_x [x; y; z] = [[-1; 0; 0]; [0; -1; 0]; [0; 0; -1]] /\
   rotation_from_x [x; y; z] = [[-1; 0; 0]; [0; -1; 0]; [0; 0; -1]]) \/
  (1 + x <> 0 /\
   rotation_to_x [x; y; z] = [[x; y; z]; [- y; 1 - y * y / (1 + x); - (y * z / (1 + x))]; [- z; - (y * z / (1 + x)); 1 - z * z / (1 + x)]] /\
   rotation_from_x [x; y; z] = [[x; - y; - z]; [y; 1 - y * y / (1 + x); - (y * z / (1 + x))]; [z; - (y * z / (1 + x)); 1 - z * z / (1 + x)]]).
Proof.
  intros H. destruct (Req_EM_T x (Ropp 1)) as [E|E].
  - left. assert (y * y = 0) as Y by (pose proof (Rle_0_sqr y); pose proof (Rle_0_sqr z); unfold Rsqr in *; nra).
    assert (z * z = 0) as Z by nra. assert (y = 0) by (destruct (Rmult_integral _ _ Y); auto).
    assert (z = 0) by (destruct (Rmult_integral _ _ Z); auto).
    repeat split; auto.
    + unfold rotation_to_x, MakeRotation3, opposite3. destruct (Req_EM_T x (- (1))); [|lra].
      destruct (Req_EM_T y (- 0)); [|lra]. destruct (Req_EM_T z (- 0)); [|lra]. reflexivity.
    + unfold rotation_from_x, MakeRotation3, opposite3. destruct (Req_EM_T 1 (- x)); [|lra].
      destruct (Req_EM_T 0 (- y)); [|lra]. destruct (Req_EM_T 0 (- z)); [|lra]. reflexivity.
  - right. assert (1 + x <> 0) as N by lra. split; [exact N|]. split.
    + unfold rotation_to_x, MakeRotation3, opposite3. destruct (Req_EM_T x (- (1))) as [B|_]; [lra|].
      cbn [rows3]. assert (x = 1 + (- (y * y) - z * z) / (1 + x)) as X.
      { replace (- (y * y) - z * z) with ((1 + x) * (x - 1)) by nra. field. lra. }
      apply rows3_eq; try (field; lra).
      etransitivity; [|symmetry; exact X]. field. lra.
    + unfold rotation_from_x, MakeRotation3, opposite3. destruct (Req_EM_T 1 (- x)) as [B|_]; [lra|].
      cbn [rows3]. assert (x = 1 + (- (y * y) - z * z) / (1 + x)) as X.
      { replace (- (y * y) - z * z) with ((1 + x) * (x - 1)) by nra. field. lra. }
      apply rows3_eq; try (field; lra).
      etransitivity; [|symmetry; exact X]. field. lra.
Qed.

Lemma frame_exists n : length n = 2%nat \/ length n = 3%nat -> unit n -> frame n (rotation_to_x n) (rotation_from_x n).
Proof.
  intros Hn U. destruct n as [|x [|y [|z [|]]]]; cbn in Hn; try lia; unfold unit in U; cbn in U; clear Hn.
  - destruct (to_x_2 x y ltac:(lra)) as (-> & ->). unfold frame. split; [|split; [|split]].
    + intros v _. split; reflexivity.
    + intros v Hv. destruct v as [|a [|b [|]]]; cbn in Hv; try lia. cbn.
      split; apply list2_eq.
      all: match goal with |- _ = ?r => transitivity (r * (x * x + (y * y + 0))); [ring | rewrite U; ring] end.
    + intros v w Hv Hw. destruct v as [|a [|b [|]]]; cbn in Hv; try lia. destruct w as [|c [|d [|]]]; cbn in Hw; try lia.
      cbn. transitivity ((a * c + b * d) * (x * x + (y * y + 0))); [ring|rewrite U; ring].
    + intros v Hv. destruct v as [|a [|b [|]]]; cbn in Hv; try lia. cbn. ring.
  - destruct (to_x_3 x y z ltac:(lra)) as [(-> & -> & -> & -> & ->)|(N & -> & ->)]; unfold frame.
    + split; [|split; [|split]].
      * intros v _. split; reflexivity.
      * intros v Hv. destruct v as [|a [|b [|c [|]]]]; cbn in Hv; try lia. cbn. split; apply list3_eq; ring.
      * intros v w Hv Hw. destruct v as [|a [|b [|c [|]]]]; cbn in Hv; try lia. destruct w as [|d [|e [|f [|]]]]; cbn in Hw; try lia.
        cbn. ring.
      * intros v Hv. destruct v as [|a [|b [|c [|]]]]; cbn in Hv; try lia. cbn. ring.
    + set (k := / (1 + x)). assert (y * y + z * z = (1 - x) * (1 + x)) as YZ by nra.
      assert (k * (1 + x) = 1) as K by (unfold k; field; exact N).
      assert (k * (y * y) + k * (z * z) = 1 - x) as KK.
      { transitivity (k * (y * y + z * z)); [ring|]. rewrite YZ. transitivity ((1 - x) * (k * (1 + x))); [ring|rewrite K; ring]. }
      unfold Rdiv. fold k. clearbody k. split; [|split; [|split]].
      * intros v _. split; reflexivity.
      * intros v Hv. destruct v as [|a [|b [|c [|]]]]; cbn in Hv; try lia. cbn.
        assert (z * z = 1 - x * x - y * y) as ZZ by nra.
        assert (k * (z * z) = 1 - x - k * (y * y)) as KZ by lra.
        assert (k * x = 1 - k) as KX by lra.
        split; apply list3_eq.
        -- transitivity (a * (x * x + (y * y + (z * z + 0))) + b * y * (x - 1 + (k * (y * y) + k * (z * z))) + c * z * (x - 1 + (k * (y * y) + k * (z * z)))); [ring|].
           rewrite U, KK. ring.
        -- transitivity (b + a * y * (x - 1 + (k * (y * y) + k * (z * z))) + b * (y * y) * (1 - 2 * k + k * (k * (y * y) + k * (z * z)))
                         + c * y * z * (1 - 2 * k + k * (k * (y * y) + k * (z * z)))); [ring|]. rewrite KK.
           replace (1 - 2 * k + k * (1 - x)) with (1 - k - k * x) by ring. rewrite KX. ring.
        -- transitivity (c + a * z * (x - 1 + (k * (y * y) + k * (z * z))) + c * (z * z) * (1 - 2 * k + k * (k * (y * y) + k * (z * z)))
                         + b * y * z * (1 - 2 * k + k * (k * (y * y) + k * (z * z)))); [ring|]. rewrite KK.
           replace (1 - 2 * k + k * (1 - x)) with (1 - k - k * x) by ring. rewrite KX. ring.
        -- transitivity (a * (x * x + (y * y + (z * z + 0))) - b * y * (x - 1 + (k * (y * y) + k * (z * z))) - c * z * (x - 1 + (k * (y * y) + k * (z * z)))); [ring|].
           rewrite U, KK. ring.
        -- transitivity (b - a * y * (x - 1 + (k * (y * y) + k * (z * z))) + b * (y * y) * (1 - 2 * k + k * (k * (y * y) + k * (z * z)))
                         + c * y * z * (1 - 2 * k + k * (k * (y * y) + k * (z * z)))); [ring|]. rewrite KK.
           replace (1 - 2 * k + k * (1 - x)) with (1 - k - k * x) by ring. rewrite KX. ring.
        -- transitivity (c - a * z * (x - 1 + (k * (y * y) + k * (z * z))) + c * (z * z) * (1 - 2 * k + k * (k * (y * y) + k * (z * z)))
                         + b * y * z * (1 - 2 * k + k * (k * (y * y) + k * (z * z)))); [ring|]. rewrite KK.
           replace (1 - 2 * k + k * (1 - x)) with (1 - k - k * x) by ring. rewrite KX. ring.
      * intros v w Hv Hw. destruct v as [|a [|b [|c [|]]]]; cbn in Hv; try lia. destruct w as [|d [|e [|f [|]]]]; cbn in Hw; try lia.
        cbn.
        assert (k * x = 1 - k) as KX by lra.
        transitivity (a * d * (x * x + (y * y + (z * z + 0))) + b * e + c * f
          + (a * (y * e + z * f) + d * (y * b + z * c)) * (x - 1 + (k * (y * y) + k * (z * z)))
          + (y * b + z * c) * (y * e + z * f) * (1 - 2 * k + k * (k * (y * y) + k * (z * z)))); [ring|].
        rewrite U, KK. replace (1 - 2 * k + k * (1 - x)) with (1 - k - k * x) by ring. rewrite KX. ring.
      * intros v Hv. destruct v as [|a [|b [|c [|]]]]; cbn in Hv; try lia. cbn. ring.
Qed.

(** ** States with another momentum of the same norm *)

Lemma admissible_norm g q m : admissible g q -> squaredNorm m = squaredNorm (momentum q) ->
  admissible g (mkComplete (density q) m (energy q) (pressure q) (speed_of_sound q)).
Proof.
  intros (A & B & C & D & E) H. split; [exact A|]. split; [exact B|]. split; [|split; assumption].
  cbn [density momentum energy pressure]. rewrite C. f_equal.
  rewrite <- !kinetic_energy by lra. unfold KineticEnergy. rewrite H. reflexivity.
Qed.

Lemma rotate_admissible g q n Q Q' : frame n Q Q' -> length (momentum q) = length n -> admissible g q -> admissible g (Rotate q Q).
Proof.
  intros (_ & _ & D & _) L A. apply admissible_norm; [exact A|]. unfold squaredNorm. apply D; exact L.
Qed.

Lemma rotate_back_admissible g q n Q Q' : frame n Q Q' -> length (momentum q) = length n -> admissible g q -> admissible g (Rotate q Q').
Proof.
  intros (L & I & D & _) H A. apply admissible_norm; [exact A|]. unfold squaredNorm.
  rewrite <- (D (mat_vec Q' (momentum q)) (mat_vec Q' (momentum q))) by (apply L; exact H).
  rewrite (proj2 (I _ H)). reflexivity.
Qed.

Lemma dot_zeros a n : dot a (repeat 0 n) = 0.
Proof. revert n. induction a as [|x a IH]; intros [|n]; cbn; auto. rewrite IH. ring. Qed.

Lemma sub_zeros a k : vsub a (vscale 2 (vscale k (repeat 0 (length a)))) = a.
Proof. unfold vsub, vscale. induction a as [|x a IH]; cbn; [reflexivity|]. rewrite IH. f_equal. ring. Qed.

Lemma mirror_vector x m : reflect_vector (x :: m) (unit_x (S (length m))) = - x :: m.
Proof.
  unfold reflect_vector, unit_x. replace (S (length m) - 1)%nat with (length m) by lia. cbn [dot].
  rewrite dot_zeros. replace (x * 1 + 0) with x by ring.
  cbn [vscale map vsub vmap2]. f_equal; [ring|]. apply sub_zeros.
Qed.

(** ** The Riemann problem of a state and its mirror image *)

Section Mirror.
Variables (g : gas) (s : Complete) (x : R) (m : list R).
Hypothesis Hg : perfect g.
Hypothesis Hs : admissible g s.
Hypothesis Hm : momentum s = x :: m.
Let l := Reflect s (unit_x (length (momentum s))).
Let u := velocity s 0.
Let c := speed_of_sound s.
Let p0 := pressure s.
Let rho := density s.

Lemma mirror_momentum : momentum l = - x :: m.
Proof. unfold l, Reflect. cbn [momentum]. rewrite Hm. cbn [length]. apply mirror_vector. Qed.

Lemma mirror_admissible : admissible g l.
Proof.
  apply admissible_norm; [exact Hs|]. rewrite Hm. cbn [length]. rewrite mirror_vector. unfold squaredNorm. cbn [dot]. ring.
Qed.

Lemma mirror_velocity : velocity l 0 = - u.
Proof. unfold u, velocity. rewrite mirror_momentum, Hm. change (density l) with (density s). cbn [nth]. unfold Rdiv. ring. Qed.

Lemma mirror_phi p : phi g l p = phi g s p.
Proof. reflexivity. Qed.

Lemma mirror_dphi p : dphi g l p = dphi g s p.
Proof. reflexivity. Qed.

Lemma mirror_F p : F g l s 0 p = 2 * (phi g s p + u).
Proof. unfold F. rewrite mirror_phi, mirror_velocity. fold u. ring. Qed.

Lemma mirror_DF p : DF g l s p = 2 * dphi g s p.
Proof. unfold DF. rewrite mirror_dphi. ring. Qed.

Lemma mirror_mean : 1 / 2 * (pressure l + pressure s) = p0.
Proof. change (pressure l) with (pressure s). unfold p0. field. Qed.

Lemma mirror_middle p v : ComputeMiddleState g l s 0 = Middle p v -> v = 0.
Proof.
  unfold ComputeMiddleState. destruct (NewtonIteration _ _ _ _ _) as [y|y]; [|discriminate].
  unfold middle_velocity. change (f_side g l y) with (f_side g s y). rewrite mirror_velocity. fold u.
  destruct (f_side g s y) as [r| | |]; cbn [dscale dadd]; try discriminate.
  - intros E. injection E as E1 E2. rewrite <- E2. field.
  - destruct (Rlt_dec 0 (- (1))); [lra|]. destruct (Rlt_dec (- (1)) 0); [|lra]. discriminate.
  - destruct (Rlt_dec 0 (- (1))); [lra|]. destruct (Rlt_dec (- (1)) 0); [|lra]. discriminate.
Qed.

Lemma shock_gap p : gamma g <= 2 -> p0 < p ->
  (gamma g - 1) * c / 2 < massflow g s p / rho - phi g s p.
Proof.
  intros G2 Hp. destruct (side_facts g s Hg Hs) as (G & A1 & A2 & A3 & A4). fold c p0 rho in A1, A2, A3, A4.
  destruct (massflow_spec g s Hg Hs p ltac:(lra)) as [J JJ]. fold p0 rho in JJ.
  rewrite (phi_shock g s Hg Hs) by exact Hp. fold p0. set (W := massflow g s p) in *. clearbody W.
  set (k := gamma g - 1) in *. assert (gamma g = k + 1) as EG by (unfold k; ring). assert (0 < k <= 1) as K by (unfold k; lra).
  rewrite EG in *. clearbody k.
  replace (W / rho - (p - p0) / W) with ((k * p + (k + 2) * p0) / (2 * W)).
  2:{ replace (W / rho - (p - p0) / W) with ((W * W - rho * (p - p0)) / (rho * W)) by (field; lra). rewrite JJ. field. lra. }
  apply Rmult_lt_reg_r with (2 * W); [lra|].
  replace ((k * p + (k + 2) * p0) / (2 * W) * (2 * W)) with (k * p + (k + 2) * p0) by (field; lra).
  replace (k * c / 2 * (2 * W)) with (k * (c * W)) by field.
  assert (0 < c * W) as CW by (apply Rmult_lt_0_compat; assumption).
  assert ((c * W) * (c * W) = (k + 1) * p0 * ((k + 2) * p + k * p0) / 2) as SQ.
  { replace (c * W * (c * W)) with (c * c * (W * W)) by ring. rewrite JJ.
    replace (c * c * (rho * ((k + 1 + 1) * p + k * p0) / 2)) with (rho * (c * c) * ((k + 2) * p + k * p0) / 2) by field.
    rewrite A4. field. }
  apply Rsqr_incrst_0; unfold Rsqr; [| apply Rlt_le; apply Rmult_lt_0_compat; lra | nra].
  replace (k * (c * W) * (k * (c * W))) with (k * k * (c * W * (c * W))) by ring. rewrite SQ.
  set (y := c * W) in *. clearbody y. clear SQ CW JJ J A3 A4 W.
  assert (0 < p0 * p) as H1 by (apply Rmult_lt_0_compat; lra). assert (0 < p0 * p0) as H2 by (apply Rmult_lt_0_compat; lra).
  assert (0 < p * p) as H3 by (apply Rmult_lt_0_compat; lra).
  replace (k * k * ((k + 1) * p0 * ((k + 2) * p + k * p0) / 2)) with (k * k * (k + 1) * (k + 2) / 2 * (p0 * p) + k * k * k * (k + 1) / 2 * (p0 * p0)) by field.
  replace ((k * p + (k + 2) * p0) * (k * p + (k + 2) * p0)) with (k * k * (p * p) + 2 * k * (k + 2) * (p0 * p) + (k + 2) * (k + 2) * (p0 * p0)) by ring.
  assert (0 < k * k * (p * p)) by (apply Rmult_lt_0_compat; [nra|lra]).
  assert (k * k * (k + 1) * (k + 2) / 2 <= 2 * k * (k + 2)) as I1.
  { assert (k * (k + 1) <= 4) by nra. assert (0 <= k * (k + 2)) by nra.
    replace (k * k * (k + 1) * (k + 2) / 2) with (k * (k + 2) * (k * (k + 1)) / 2) by field. nra. }
  assert (k * k * k * (k + 1) / 2 <= (k + 2) * (k + 2)) as I2.
  { assert (k * k <= 1) by nra. assert (k * k * k <= 1) by nra. nra. }
  apply Rmult_le_compat_r with (r := p0 * p) in I1; [|lra]. apply Rmult_le_compat_r with (r := p0 * p0) in I2; [|lra]. lra.
Qed.

(** The state at the wall *)
Lemma mirror_left p : gamma g <= 2 -> accuracy < (gamma g - 1) * c -> 0 < p -> Rabs (phi g s p + u) <= accuracy / 2 ->
  LeftSide0 g l 0 p 0 = Some (left_middle g l 0 p 0).
Proof.
  intros G2 T Hp Hr. destruct (side_facts g s Hg Hs) as (G & A1 & A2 & A3 & A4). fold c p0 rho in A1, A2, A3, A4.
  apply Rabs_def2 in Hr || (pose proof (Rle_abs (phi g s p + u)); pose proof (Rle_abs (- (phi g s p + u))); rewrite Rabs_Ropp in *).
  unfold LeftSide0, left_middle. cbv zeta. rewrite mirror_velocity.
  change (pressure l) with p0. change (speed_of_sound l) with c.
  destruct (Rlt_dec p0 p) as [L|L].
  - pose proof (distance_shock g s Hg Hs p L) as Ed. unfold signal_distance in Ed. fold p0 in Ed.
    destruct (Rlt_dec p0 p) as [_|]; [|lra]. fold c in Ed.
    pose proof (shock_gap p G2 L) as Gap. rewrite Ed. fold rho.
    destruct (Rlt_dec (- u - massflow g s p / rho) 0) as [_|N]; [reflexivity|]. exfalso. apply N. lra.
  - assert (p <= p0) as Lp by lra. pose proof (sound_ratio_range g s Hg Hs p (conj Hp Lp)) as [SR _].
    assert (phi g s p <= 0) as P0.
    { rewrite (phi_rarefaction g s) by exact Lp. fold c.
      assert (0 < 2 * c / (gamma g - 1)) by (apply Rdiv_lt_0_compat; lra).
      assert (2 * c / (gamma g - 1) * (sound_ratio g s p - 1) <= 2 * c / (gamma g - 1) * 0) by (apply Rmult_le_compat_l; lra). lra. }
    assert ((gamma g - 1) * c <= 1 * c) by (apply Rmult_le_compat_r; lra).
    destruct (Rlt_dec 0 (- u - c)) as [N|_]; [lra|].
    unfold sound_ratio in SR. fold p0 in SR.
    assert (0 < c * Rpower (p / p0) ((gamma g - 1) / (2 * gamma g))) by (apply Rmult_lt_0_compat; lra).
    destruct (Rlt_dec (0 - _) 0) as [_|N]; [reflexivity|lra].
Qed.

Lemma mirror_solve old p : gamma g <= 2 -> accuracy < (gamma g - 1) * c -> 0 < p -> Rabs (phi g s p + u) <= accuracy / 2 ->
  ComputeMiddleState g l s 0 = Middle p 0 -> SolveRiemannProblem g old l s 0 = Some (left_middle g l 0 p 0).
Proof.
  intros G2 T Hp Hr E. unfold SolveRiemannProblem. pose proof mirror_admissible as Hl.
  destruct (Rlt_dec 0 (density l)) as [_|N]; [|exfalso; apply N; apply Hl].
  destruct (Rlt_dec 0 (density s)) as [_|N]; [|exfalso; apply N; apply Hs]. rewrite E. unfold SolveFrom.
  rewrite (assertions_true g l s p Hg Hl Hs Hp).
  destruct (Rle_dec 0 0); [|lra]. apply mirror_left; assumption.
Qed.

(** ** The iteration converges *)

Lemma accuracy_eq : / 10 ^ 7 = accuracy.
Proof. reflexivity. Qed.

Lemma root_above ps : 0 < ps -> phi g s ps + u = 0 -> u <= 0 -> p0 <= ps.
Proof.
  intros Hps E Hu. destruct (Rle_dec p0 ps); [assumption|]. exfalso.
  pose proof (phi_increasing g s Hg Hs ps p0 Hps ltac:(lra)) as I. unfold p0 in I at 1. rewrite (phi_p0 g s Hg Hs) in I. lra.
Qed.

Lemma root_slope ps : p0 < ps -> phi g s ps + u = 0 -> - u <= 2 * dphi g s ps * (ps - p0).
Proof.
  intros H E. unfold dphi. fold p0. destruct (Rlt_dec p0 ps); [|lra].
  pose proof (facts g s Hg Hs) as (G & A1 & A2 & A3 & A4 & A5 & A6). fold p0 rho c in A1, A2, A3, A4.
  rewrite (dphi_s_alt g s Hg Hs) by (fold p0; lra). fold p0.
  assert (phi g s ps = (ps - p0) * sqrt (shock_A g s / (ps + shock_B g s))) as P.
  { rewrite (phi_eq g s). fold p0. destruct (Rlt_dec p0 ps); [reflexivity|lra]. }
  assert (0 <= sqrt (shock_A g s / (ps + shock_B g s))) as SQ by apply sqrt_pos.
  set (k := sqrt (shock_A g s / (ps + shock_B g s))) in *.
  assert (0 < (p0 + shock_B g s) / (ps + shock_B g s)) as Q by (apply Rdiv_lt_0_compat; lra).
  set (f := (p0 + shock_B g s) / (ps + shock_B g s)) in *.
  assert (- u = (ps - p0) * k) as -> by lra.
  replace (2 * (1 / 2 * (1 + f) * k) * (ps - p0)) with ((ps - p0) * k + f * ((ps - p0) * k)) by field.
  assert (0 <= f * ((ps - p0) * k)); [|lra]. apply Rmult_le_pos; [lra|]. apply Rmult_le_pos; lra.
Qed.

Lemma root_bound ps : p0 < ps -> phi g s ps + u = 0 -> ps - p0 <= rho * c * (- u * (1 + (gamma g + 1) / 2 * (- u / c))).
Proof.
  intros H E. pose proof (facts g s Hg Hs) as (G & A1 & A2 & A3 & A4 & A5 & A6). fold p0 rho c in A1, A2, A3, A4.
  destruct (massflow_spec g s Hg Hs ps ltac:(lra)) as [J JJ]. fold p0 rho in JJ.
  rewrite (phi_shock g s Hg Hs) in E by exact H. fold p0 in E. set (W := massflow g s ps) in *. clearbody W.
  set (v := - u) in *. assert (ps - p0 = v * W) as D. { assert ((ps - p0) / W = v) as <- by (unfold v; lra). field. lra. }
  assert (0 < v) as V. { apply Rmult_lt_reg_r with W; [exact J|]. lra. }
  assert (W * W = rho * (gamma g * p0) + rho * (gamma g + 1) / 2 * (v * W)) as WW.
  { rewrite JJ. replace ps with (v * W + p0) by lra. field. }
  rewrite <- A4 in WW. rewrite D.
  replace (rho * c * (v * (1 + (gamma g + 1) / 2 * (v / c)))) with (v * (rho * c + (gamma g + 1) / 2 * (rho * v))) by (field; lra).
  apply Rmult_le_compat_l; [lra|].
  set (b := (gamma g + 1) / 2 * (rho * v)). assert (W * W = (rho * c) * (rho * c) + b * W) as WB by (rewrite WW; unfold b; field).
  assert (0 < b) as B by (unfold b; apply Rmult_lt_0_compat; [lra|apply Rmult_lt_0_compat; lra]).
  assert (0 < rho * c) as RC by (apply Rmult_lt_0_compat; lra). clearbody b. set (a := rho * c) in *. clearbody a.
  destruct (Rle_dec W (a + b)); [assumption|]. exfalso. assert (a + b < W) by lra. nra.
Qed.

Lemma mirror_converges :
  gamma g * u < c ->
  4 * - u * (1 + (gamma g + 1) / 2 * (- u / c)) <= accuracy * 4 ^ Z.to_nat 4999 ->
  4 * c / (gamma g - 1) <= accuracy * (1 - gamma g * u / c) * 4 ^ Z.to_nat 4999 ->
  exists p, ComputeMiddleState g l s 0 = Middle p 0 /\ 0 < p /\ Rabs (phi g s p + u) <= accuracy / 2.
Proof.
  intros H1 H2 H3. assert (0 < 4 ^ Z.to_nat 4999) as HN by (apply pow_lt; lra).
  pose proof (fun ps x1 => converges g l s 0 Hg mirror_admissible Hs ps x1) as CV.
  rewrite accuracy_eq in CV. revert HN CV H2 H3. generalize (4 ^ Z.to_nat 4999). intros N HN CV H2 H3. 
  pose proof (facts g s Hg Hs) as (G & A1 & A2 & A3 & A4 & _ & _). fold p0 rho c in A1, A2, A3, A4.
  pose proof mirror_admissible as Hl. pose proof tol_positive as TP. rewrite accuracy_eq in TP.
  assert (~ vacuum g 0 l s) as NV.
  { unfold vacuum. change (speed l 0) with (velocity l 0). change (speed s 0) with u. rewrite mirror_velocity.
    change (speed_of_sound l) with c. fold c. intros V.
    assert (u < c / gamma g). { apply Rmult_lt_reg_l with (gamma g); [lra|]. replace (gamma g * (c / gamma g)) with c by (field; lra). lra. }
    assert (c / gamma g < 2 / (gamma g - 1) * c).
    { apply Rmult_lt_reg_l with (gamma g * (gamma g - 1)); [nra|].
      replace (gamma g * (gamma g - 1) * (c / gamma g)) with ((gamma g - 1) * c) by (field; lra).
      replace (gamma g * (gamma g - 1) * (2 / (gamma g - 1) * c)) with (2 * gamma g * c) by (field; lra). nra. }
    lra. }
  destruct (root_exists g l s 0 Hg Hl Hs NV) as (ps & Hps & E). rewrite mirror_F in E.
  assert (phi g s ps + u = 0) as E' by lra.
  set (x1 := p0 - F g l s 0 p0 / DF g l s p0).
  assert (0 < rho * c) as RC by (apply Rmult_lt_0_compat; lra).
  assert (dphi g s p0 = / (rho * c)) as D0.
  { unfold dphi. fold p0. destruct (Rlt_dec p0 p0); [lra|]. apply (dphi_r_p0 g s Hg Hs). }
  assert (F g l s 0 p0 = 2 * u) as F0. { rewrite mirror_F. unfold p0. rewrite (phi_p0 g s Hg Hs). ring. }
  assert (x1 = p0 - rho * c * u) as X1. { unfold x1. rewrite F0, mirror_DF, D0. field. split; lra. }
  assert (p0 = rho * c * c / gamma g) as P0. { replace (rho * c * c) with (rho * (c * c)) by ring. rewrite A4. field. lra. }
  assert (x1 = p0 * (1 - gamma g * u / c)) as X1'. { rewrite X1, P0. field. split; lra. }
  set (z := 1 - gamma g * u / c) in *.
  assert (0 < z) as Z. { unfold z. assert (gamma g * u / c < 1); [|lra]. apply Rmult_lt_reg_r with c; [lra|].
    replace (gamma g * u / c * c) with (gamma g * u) by (field; lra). lra. }
  assert (0 < x1) as HX1 by (rewrite X1'; apply Rmult_lt_0_compat; lra).
  pose proof (CV ps x1 Hps) as C. rewrite mirror_mean in C. rewrite mirror_F in C.
  specialize (C ltac:(lra) eq_refl HX1).
  assert (- F g l s 0 x1 * DF g l s x1 <= accuracy * DF g l s ps * N) as B.
  { rewrite mirror_F, !mirror_DF.
    pose proof (dphi_positive g s Hg Hs ps Hps) as Dps. pose proof (dphi_positive g s Hg Hs x1 HX1) as Dx1.
    destruct (Rle_dec u 0) as [U|U].
    - assert (p0 <= x1) as PX by (rewrite X1; assert (0 <= rho * c * - u) by (apply Rmult_le_pos; lra); lra).
      pose proof (dphi_antitone g s Hg Hs p0 x1 A2 PX) as DA. rewrite D0 in DA.
      assert (phi g s p0 = 0) as PP by (apply (phi_p0 g s Hg Hs)).
      assert (0 <= phi g s x1) as PX1.
      { destruct PX as [PX|PX]; [pose proof (phi_increasing g s Hg Hs p0 x1 A2 PX); lra|rewrite <- PX; lra]. }
      pose proof (root_above ps Hps E' U) as RA. destruct RA as [RA|RA].
      2:{ rewrite <- RA in E'. rewrite PP in E'. assert (u = 0) by lra. 
          assert (- (2 * (phi g s x1 + u)) * (2 * dphi g s x1) <= 0) by nra.
          assert (0 < accuracy * (2 * dphi g s ps) * N) by (repeat apply Rmult_lt_0_compat; lra). lra. }
      pose proof (root_slope ps RA E') as RS. pose proof (root_bound ps RA E') as RB.
      apply Rle_trans with (- (2 * u) * (2 * / (rho * c))).
      { apply Rle_trans with (- (2 * u) * (2 * dphi g s x1)).
        - apply Rmult_le_compat_r; lra.
        - apply Rmult_le_compat_l; lra. }
      assert (- u * (1 + (gamma g + 1) / 2 * (- u / c)) <= accuracy * N / 4) as H2' by lra.
      assert (ps - p0 <= rho * c * (accuracy * N / 4)) as PB.
      { eapply Rle_trans; [exact RB|]. apply Rmult_le_compat_l; lra. }
      apply Rle_trans with (4 * (2 * dphi g s ps * (ps - p0)) * / (rho * c)).
      { replace (- (2 * u) * (2 * / (rho * c))) with (4 * - u * / (rho * c)) by ring.
        apply Rmult_le_compat_r; [apply Rlt_le, Rinv_0_lt_compat; lra|]. lra. }
      apply Rle_trans with (4 * (2 * dphi g s ps * (rho * c * (accuracy * N / 4))) * / (rho * c)).
      { apply Rmult_le_compat_r; [apply Rlt_le, Rinv_0_lt_compat; lra|]. apply Rmult_le_compat_l; [lra|].
        apply Rmult_le_compat_l; lra. }
      apply Req_le. field. split; lra.
    - assert (0 < u) as U' by lra.
      assert (x1 < p0) as XP by (rewrite X1; assert (0 < rho * c * u) by (apply Rmult_lt_0_compat; lra); lra).
      assert (ps <= p0) as PsP.
      { destruct (Rle_dec ps p0); [assumption|]. exfalso. pose proof (phi_increasing g s Hg Hs p0 ps A2 ltac:(lra)) as I.
        unfold p0 in I at 1. rewrite (phi_p0 g s Hg Hs) in I. lra. }
      pose proof (dphi_antitone g s Hg Hs ps p0 Hps PsP) as DA. rewrite D0 in DA.
      pose proof (phi_above g s Hg Hs x1 HX1) as PA. fold c in PA.
      assert (dphi g s x1 <= / (rho * c) * / z) as DX.
      { unfold dphi. fold p0. destruct (Rlt_dec p0 x1); [lra|]. unfold dphi_r. fold rho c p0.
        apply Rmult_le_compat_l; [apply Rlt_le, Rinv_0_lt_compat; lra|].
        replace (x1 / p0) with z by (rewrite X1'; field; lra).
        replace (- (1 / 2) * (gamma g + 1) / gamma g) with (- ((gamma g + 1) / (2 * gamma g))) by (field; lra).
        rewrite Rpower_Ropp. apply Rinv_le_contravar; [exact Z|].
        assert (z < 1) as Z1. { apply Rmult_lt_reg_l with p0; [exact A2|]. rewrite <- X1'. lra. }
        rewrite <- (Rpower_1 z) at 1 by exact Z. unfold Rpower.
        assert ((gamma g + 1) / (2 * gamma g) <= 1). { apply Rmult_le_reg_r with (2 * gamma g); [lra|].
          replace ((gamma g + 1) / (2 * gamma g) * (2 * gamma g)) with (gamma g + 1) by (field; lra). lra. }
        assert (ln z < 0). { rewrite <- ln_1. apply ln_increasing; lra. }
        assert (1 * ln z <= (gamma g + 1) / (2 * gamma g) * ln z) as LE by nra.
        destruct LE as [LE|LE]; [left; apply exp_increasing; exact LE|right; rewrite LE; reflexivity]. }
      assert (- (2 * (phi g s x1 + u)) <= 4 * c / (gamma g - 1)) as FX.
      { replace (4 * c / (gamma g - 1)) with (2 * (2 / (gamma g - 1) * c)) by (field; lra). lra. }
      assert (0 < 4 * c / (gamma g - 1)) as CP by (apply Rdiv_lt_0_compat; lra).
      apply Rle_trans with (4 * c / (gamma g - 1) * (2 * (/ (rho * c) * / z))).
      { apply Rle_trans with (4 * c / (gamma g - 1) * (2 * dphi g s x1)).
        - apply Rmult_le_compat_r; lra.
        - apply Rmult_le_compat_l; lra. }
      apply Rle_trans with (accuracy * z * N * (2 * (/ (rho * c) * / z))).
      { apply Rmult_le_compat_r; [|exact H3]. apply Rmult_le_pos; [lra|]. apply Rmult_le_pos; apply Rlt_le, Rinv_0_lt_compat; lra. }
      replace (accuracy * z * N * (2 * (/ (rho * c) * / z))) with (accuracy * (2 * / (rho * c)) * N) by (field; split; lra).
      apply Rmult_le_compat_r; [lra|]. apply Rmult_le_compat_l; lra. }
  destruct (C B) as (p & v & EM & Hp & Er & _). pose proof (mirror_middle p v EM) as ->.
  exists p. split; [exact EM|]. split; [exact Hp|]. rewrite mirror_F in Er.   rewrite Rabs_mult in Er. rewrite (Rabs_right 2) in Er by lra. lra.
Qed.
End Mirror.
