(** Proofs about gradients and reconstructions: positivity, both MUSCL-Hancock methods, mirror images. *)
From Coq Require Import List Reals Arith Bool Lia Lra Psatz FunctionalExtensionality.
From Verif Require Import LimiterModel LimiterSpec LimiterProofs ReconstructModel ReconstructSpec ReconstructProofs ReconstructProofs2 ReconstructProofs3.
Import ListNotations.
Local Open Scope R_scope.

(** ** Positivity *)
Lemma minmod_abs a b : Rabs (MinMod a b) <= Rabs a /\ Rabs (MinMod a b) <= Rabs b.
Proof.
  unfold MinMod. destruct (Rlt_dec 0 b); unfold Rmax, Rmin; repeat (destruct (Rle_dec _ _)); split; unfold Rabs; repeat (destruct (Rcase_abs _)); lra.
Qed.
Lemma minmod_positive dx l m r : 0 < dx -> 0 < l -> 0 < m -> 0 < r -> dx * Rabs (CentralDifference MinModLimiter ((m - l) / dx) ((r - m) / dx)) < m.
Proof.
  intros Hx Hl Hm Hr. rewrite central_minmod. set (a := (m - l) / dx). set (b := (r - m) / dx). assert (A : dx * a = m - l) by (unfold a; field; lra). assert (B : dx * b = r - m) by (unfold b; field; lra).
  unfold MinMod. destruct (Rlt_dec 0 b); unfold Rmax, Rmin; repeat (destruct (Rle_dec _ _)); unfold Rabs; repeat (destruct (Rcase_abs _)); nra.
Qed.
Lemma slope_speed dt dx k uL uM uR : 0 < dx -> 0 <= dt -> dt * Rabs uL <= k * dx -> dt * Rabs uM <= k * dx ->
  dt * Rabs (CentralDifference MinModLimiter ((uM - uL) / dx) ((uR - uM) / dx)) <= 2 * k.
Proof.
  intros Hx Ht HL HM. rewrite central_minmod. destruct (minmod_abs ((uM - uL) / dx) ((uR - uM) / dx)) as [A _].
  unfold Rdiv in A at 3. rewrite Rabs_mult, (Rabs_pos_eq (/ dx)) in A by (left; apply Rinv_0_lt_compat; exact Hx).
  assert (B : Rabs (uM - uL) <= Rabs uM + Rabs uL) by (unfold Rabs; repeat (destruct (Rcase_abs _)); lra).
  apply Rle_trans with (dt * (Rabs (uM - uL) * / dx)); [apply Rmult_le_compat_l; assumption|].
  apply Rmult_le_reg_r with dx; [exact Hx|]. replace (dt * (Rabs (uM - uL) * / dx) * dx) with (dt * Rabs (uM - uL)) by (field; lra). nra.
Qed.

Lemma positive_part G k X s u du eta dt dx : 0 < X -> 0 <= G -> 0 <= k -> 0 < dx -> 0 <= dt -> k * (1 + 2 * G) <= 1 -> Rabs eta = dx / 2 ->
  dx * Rabs s < X -> dt * Rabs u <= k * dx -> dt * Rabs du <= 2 * k ->
  0 < X + eta * s - dt / 2 * (u * s + G * X * du).
Proof.
  intros HX HG Hk Hx Ht HK He Hs Hu Hdu.
  assert (A : Rabs ((eta - dt / 2 * u) * s) < (1 + k) / 2 * X).
  { rewrite Rabs_mult. assert (B : Rabs (eta - dt / 2 * u) <= (1 + k) / 2 * dx).
    { apply Rle_trans with (Rabs eta + Rabs (dt / 2 * u)); [unfold Rminus; rewrite <- (Rabs_Ropp (dt / 2 * u)); apply Rabs_triang|].
      rewrite Rabs_mult, (Rabs_pos_eq (dt / 2)), He by lra. lra. }
    apply Rle_lt_trans with ((1 + k) / 2 * dx * Rabs s); [apply Rmult_le_compat_r; [apply Rabs_pos|exact B]|]. rewrite Rmult_assoc. apply Rmult_lt_compat_l; lra. }
  assert (B : Rabs (dt / 2 * (G * X * du)) <= k * G * X).
  { rewrite !Rabs_mult, (Rabs_pos_eq (dt / 2)), (Rabs_pos_eq G), (Rabs_pos_eq X) by lra. replace (dt / 2 * (G * X * Rabs du)) with (G * X * (dt * Rabs du) / 2) by field.
    assert (0 <= G * X) by (apply Rmult_le_pos; lra). assert (G * X * (dt * Rabs du) <= G * X * (2 * k)) by (apply Rmult_le_compat_l; assumption). lra. }
  assert (C : (1 + k) / 2 * X + k * G * X <= X) by nra.
  replace (X + eta * s - dt / 2 * (u * s + G * X * du)) with (X + (eta - dt / 2 * u) * s - dt / 2 * (G * X * du)) by ring.
  apply Rabs_def2 in A. assert (D := Rle_trans _ _ _ (Rle_abs _) B). lra.
Qed.

Theorem primitive_positive n g old qL qM qR dt dx ix up k :
  (ix < n)%nat -> 0 < dx -> 0 <= dt -> 1 <= gamma g -> k * (1 + 2 * gamma g) <= 1 -> proper g qL -> proper g qM -> proper g qR ->
  (forall q, q = qL \/ q = qM \/ q = qR -> dt * Rabs (c_momentum q ix / c_density q) <= k * dx) ->
  let r := PrimitiveReconstruct n g old qM (PrimitiveGradient MinModLimiter qL qM qR dx) dt dx ix up in
  0 < c_density r /\ 0 < c_pressure r.
Proof.
  intros H Hx Ht HG HK (L1 & L2 & _) (M1 & M2 & M3 & M4) (R1 & R2 & _) Hv.
  pose proof (Hv qL (or_introl eq_refl)) as VL. pose proof (Hv qM (or_intror (or_introl eq_refl))) as VM.
  assert (K0 : 0 <= k). { assert (0 <= k * dx) by (eapply Rle_trans; [|exact VM]; apply Rmult_le_pos; [exact Ht|apply Rabs_pos]). nra. }
  destruct (prim_rec_spec n old qM (PrimitiveGradient MinModLimiter qL qM qR dx) dt dx ix up H ltac:(lra) ltac:(lra)) as (P1 & _ & _ & P4 & _).
  cbn zeta. unfold PrimitiveReconstruct. cbn [CompleteFromPrim c_density c_pressure]. rewrite P1, P4, M4.
  assert (He : Rabs (sign up * (1 / 2) * dx) = dx / 2) by (destruct up; cbn; unfold Rabs; destruct (Rcase_abs _); lra).
  assert (Hd : dt * Rabs (velocity (PrimitiveGradient MinModLimiter qL qM qR dx) ix) <= 2 * k) by (unfold PrimitiveGradient; cbn; apply slope_speed; assumption).
  set (dw := PrimitiveGradient MinModLimiter qL qM qR dx) in *.
  split.
  - replace (c_density qM * velocity dw ix) with (1 * c_density qM * velocity dw ix) by ring.
    apply (positive_part 1 k _ _ _ _ _ dt dx); try assumption; try lra; [nra|]. unfold dw, PrimitiveGradient. cbn. apply minmod_positive; assumption.
  - apply (positive_part (gamma g) k _ _ _ _ _ dt dx); try assumption; try lra. unfold dw, PrimitiveGradient. cbn. apply minmod_positive; assumption.
Qed.

(** ** Both implementations of the MUSCL-Hancock method *)
Section Both.
Variables (Q K : Type).
Variable cons : Q -> K -> R.
Variable flux : Q -> K -> R.
Variable cfc : (K -> R) -> Q.
Variable base : Q -> Q -> K -> R.

Lemma reconstruct_state q g dt dx up : ConservativeReconstruct Q K cons flux cfc q g dt dx up = MusclState Q K cons flux cfc up (1 / 2 * dt / dx) q (fun k => g k * dx).
Proof.
  unfold ConservativeReconstruct, MusclState.
  replace (fun k => cons q k - 1 / 2 * (g k * dx)) with (fun k => cons q k - 1 / 2 * dx * g k) by (apply functional_extensionality; intros; ring).
  replace (fun k => cons q k + 1 / 2 * (g k * dx)) with (fun k => cons q k + 1 / 2 * dx * g k) by (apply functional_extensionality; intros; ring).
  f_equal. apply functional_extensionality. intros k. destruct up; reflexivity.
Qed.

Lemma minmod_scale a b dx : 0 < dx -> MinMod (a / dx) (b / dx) * dx = MinMod a b.
Proof.
  intros H. set (x := a / dx). set (y := b / dx). assert (A : a = x * dx) by (unfold x; field; lra). assert (B : b = y * dx) by (unfold y; field; lra). rewrite A, B. clearbody x y.
  unfold MinMod. destruct (Rlt_dec 0 y), (Rlt_dec 0 (y * dx)); try nra; unfold Rmin, Rmax; repeat (destruct (Rle_dec _ _)); nra.
Qed.
Lemma vanleer_scale a b dx : 0 < dx -> VanLeer (a / dx) (b / dx) * dx = VanLeer a b.
Proof.
  intros H. set (x := a / dx). set (y := b / dx). assert (A : a = x * dx) by (unfold x; field; lra). assert (B : b = y * dx) by (unfold y; field; lra). rewrite A, B. clearbody x y.
  unfold VanLeer. assert (E : 2 * (x * dx) * (y * dx) = 2 * x * y * (dx * dx)) by ring. assert (0 < dx * dx) by nra.
  destruct (Rlt_dec 0 (2 * x * y)) as [P|P], (Rlt_dec 0 (2 * (x * dx) * (y * dx))) as [P'|P']; [|rewrite E in P'; exfalso; apply P', Rmult_lt_0_compat; assumption|exfalso; rewrite E in P'; apply P; nra|ring].
  assert (x + y <> 0) by (intros Z; assert (y = - x) by lra; subst y; nra). field; repeat split; first [assumption | lra | intros Z; apply H1; nra].
Qed.

Theorem same_flux L phi s0 s1 s2 s3 dt dx : 0 < dx -> (forall a b, CentralDifference L a b = phi a b) -> (forall a b, phi (a / dx) (b / dx) * dx = phi a b) ->
  Muscl2 Q (K -> R) (K -> R) (ConservativeGradient Q K cons L) (ConservativeReconstruct Q K cons flux cfc) (fun l r _ _ => base l r) s0 s1 s2 s3 dt dx =
  MusclFlux Q K cons flux cfc base phi dt dx s0 s1 s2 s3.
Proof.
  intros Hx HL Hs. unfold Muscl2, Muscl2_gradients, MusclFlux. rewrite !reconstruct_state. unfold ConservativeGradient, LimitedSlope.
  f_equal; f_equal; apply functional_extensionality; intros k; rewrite HL; apply Hs.
Qed.
End Both.

(** ** Mirror images *)
Lemma minmod_mirror a b : CentralDifference MinModLimiter (- b) (- a) = - CentralDifference MinModLimiter a b.
Proof. rewrite !central_minmod. unfold MinMod. destruct (Rlt_dec 0 b), (Rlt_dec 0 (- a)); unfold Rmin, Rmax; repeat (destruct (Rle_dec _ _)); lra. Qed.
Lemma minmod_comm a b : CentralDifference MinModLimiter a b = CentralDifference MinModLimiter b a.
Proof. rewrite !central_minmod. unfold MinMod. destruct (Rlt_dec 0 b), (Rlt_dec 0 a); unfold Rmin, Rmax; repeat (destruct (Rle_dec _ _)); lra. Qed.
Definition mirror_slope (ix : nat) (w : prim) : prim :=
  mkPrim (- density w) (fun d => if Nat.eqb d ix then velocity w d else - velocity w d) (- pressure w) (fun i => - species w i) (fun i => - scalars w i).
Lemma mirror_gradient ix qL qM qR dx : PrimitiveGradient MinModLimiter (mirror ix qR) (mirror ix qM) (mirror ix qL) dx = mirror_slope ix (PrimitiveGradient MinModLimiter qL qM qR dx).
Proof.
  assert (A : forall a b c : R, CentralDifference MinModLimiter ((b - c) / dx) ((a - b) / dx) = - CentralDifference MinModLimiter ((b - a) / dx) ((c - b) / dx)).
  { intros a b c. rewrite <- minmod_mirror. f_equal; unfold Rdiv; ring. }
  unfold PrimitiveGradient, slope_prim, mirror_slope, PrimFromComplete, mirror. cbn. f_equal; try apply A; apply functional_extensionality; intros d; [|apply A..].
  destruct (Nat.eqb d ix); [|apply A]. rewrite minmod_comm. f_equal; unfold Rdiv; ring.
Qed.
Definition mirror_prim (ix : nat) (w : prim) : prim :=
  mkPrim (density w) (fun d => if Nat.eqb d ix then - velocity w d else velocity w d) (pressure w) (species w) (scalars w).
Lemma mirror_complete n g ix w : same_state n (CompleteFromPrim n g (mirror_prim ix w)) (mirror ix (CompleteFromPrim n g w)).
Proof.
  unfold same_state, CompleteFromPrim, mirror_prim, mirror. cbn. repeat split; intros; try reflexivity.
  - destruct (Nat.eqb d ix); ring.
  - f_equal. f_equal. f_equal. f_equal. induction n as [|n IH]; [reflexivity|]. cbn. rewrite IH. f_equal. destruct (Nat.eqb n ix); ring.
Qed.
Lemma same_state_trans n p q r : same_state n p q -> same_state n q r -> same_state n p r.
Proof.
  intros (A1 & A2 & A3 & A4 & A5 & A6 & A7) (B1 & B2 & B3 & B4 & B5 & B6 & B7). unfold same_state. split; [congruence|].
  split; [intros d Hd; rewrite A2, B2 by exact Hd; reflexivity|]. split; [congruence|]. split; [intros i; rewrite A4, B4; reflexivity|].
  split; [intros i; rewrite A5, B5; reflexivity|]. split; congruence.
Qed.

Theorem mirror_reconstruct n g old old' qL qM qR dt dx ix up : (ix < n)%nat -> dx <> 0 -> c_density qM <> 0 ->
  same_state n (PrimitiveReconstruct n g old (mirror ix qM) (PrimitiveGradient MinModLimiter (mirror ix qR) (mirror ix qM) (mirror ix qL) dx) dt dx ix (negb up))
    (mirror ix (PrimitiveReconstruct n g old' qM (PrimitiveGradient MinModLimiter qL qM qR dx) dt dx ix up)).
Proof.
  intros H Hx Hr. rewrite mirror_gradient. set (dw := PrimitiveGradient MinModLimiter qL qM qR dx).
  eapply same_state_trans; [|apply mirror_complete]. apply same_complete.
  destruct (prim_rec_spec n old (mirror ix qM) (mirror_slope ix dw) dt dx ix (negb up) H Hx Hr) as (P1 & P2 & P3 & P4 & P5 & P6).
  destruct (prim_rec_spec n old' qM dw dt dx ix up H Hx Hr) as (K1 & K2 & K3 & K4 & K5 & K6).
  set (v := prim_rec n old (mirror ix qM) (mirror_slope ix dw) dt dx ix (negb up)) in *. set (w := prim_rec n old' qM dw dt dx ix up) in *. clearbody v w.
  assert (S : sign (negb up) = - sign up) by (destruct up; cbn; ring). rewrite S in *.
  cbn [mirror mirror_slope PrimFromComplete c_density c_momentum c_pressure c_species c_scalars density velocity pressure species scalars speed_of_sound] in P1, P2, P3, P4, P5, P6, K1, K2, K3, K4, K5, K6.
  rewrite Nat.eqb_refl in *. unfold same_prim, mirror_prim. cbn [density velocity pressure species scalars]. repeat split.
  - rewrite P1, K1. field. exact Hr.
  - intros d Hd. destruct (Nat.eqb_spec d ix) as [->|N]; [rewrite P2, K2; field; exact Hr|]. rewrite (P3 d Hd N), (K3 d Hd N). apply Nat.eqb_neq in N. rewrite N. field. exact Hr.
  - rewrite P4, K4. field. exact Hr.
  - intros i. rewrite P5, K5. field. exact Hr.
  - intros i. rewrite P6, K6. field. exact Hr.
Qed.
