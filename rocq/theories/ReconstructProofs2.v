(** Proofs about gradients and reconstructions: exactness, inversion, positivity. *)
From Coq Require Import List Reals Arith Bool Lia Lra Psatz FunctionalExtensionality.
From Verif Require Import LimiterModel ReconstructModel ReconstructSpec ReconstructProofs.
Import ListNotations.
Local Open Scope R_scope.

(** ** Exactness *)
Lemma slope_prim_linear n s f w dw M2 rho u c ix l m r dx : (ix < n)%nat -> 0 < dx -> (forall y, s (y * dx) (y * dx) = y) ->
  coefficients n M2 rho u c ix f w dw -> same_prim n l (sample f 0 (- dx)) -> same_prim n m (sample f 0 0) -> same_prim n r (sample f 0 dx) ->
  same_prim n (slope_prim s l m r) dw.
Proof.
  intros Hix Hx Hs K (L1 & L2 & L3 & L4 & L5) (M1 & M2' & M3 & M4 & M5) (R1 & R2 & R3 & R4 & R5).
  assert (A : forall a b, s (a + b * 0 - 0 - (a + b * - dx - 0)) (a + b * dx - 0 - (a + b * 0 - 0)) = b).
  { intros a b. replace (a + b * 0 - 0 - (a + b * - dx - 0)) with (b * dx) by ring. replace (a + b * dx - 0 - (a + b * 0 - 0)) with (b * dx) by ring. apply Hs. }
  assert (Z : forall a b k, a + b - k * 0 = a + b - 0) by (intros; ring).
  unfold same_prim, slope_prim. cbn [density velocity pressure species scalars sample] in *. rewrite L1, M1, R1, L3, M3, R3, !(k_density K), !(k_pressure K), !Z, !A.
  split; [reflexivity|]. split.
  - intros d Hd. rewrite L2, M2', R2 by exact Hd. destruct (Nat.eq_dec d ix) as [->|N].
    + rewrite !(k_normal K), !Z. apply A.
    + rewrite !(k_velocity K), !Z by assumption. apply A.
  - split; [reflexivity|]. split; intros i; [rewrite L4, M4, R4, !(k_species' K), !Z|rewrite L5, M5, R5, !(k_scalars' K), !Z]; apply A.
Qed.

Lemma char_rec_flow n old q0 dK dt dx ix up f : (ix < n)%nat -> dx <> 0 -> c_density q0 <> 0 -> speed_of_sound q0 <> 0 ->
  coefficients n 1 (c_density q0) (velocity (PrimFromComplete q0) ix) (speed_of_sound q0) ix f (sample f 0 0) (slope_of f) ->
  same_prim n (PrimFromComplete q0) (sample f 0 0) ->
  minus dK = pressure (slope_of f) - c_density q0 * speed_of_sound q0 * velocity (slope_of f) ix ->
  plus dK = pressure (slope_of f) + c_density q0 * speed_of_sound q0 * velocity (slope_of f) ix ->
  zero dK 0%nat = density (slope_of f) - 1 / (speed_of_sound q0 * speed_of_sound q0) * pressure (slope_of f) ->
  (forall i, (1 <= i < n)%nat -> zero dK i = velocity (slope_of f) (Nat.modulo (ix + i) n)) ->
  (forall i, k_species dK i = species (slope_of f) i) -> (forall i, k_scalars dK i = scalars (slope_of f) i) ->
  same_prim n (add_prim (PrimFromComplete q0) (char_increment n 1 old q0 dK dt dx ix up)) (sample f (dt / 2) (sign up * (dx / 2))).
Proof.
  intros H Hx Hr Hc K (W1 & W2 & W3 & W4 & W5) Em Ep Ez Ezi Es Ec.
  set (lam := sign up * dt / dx) in *. assert (Ht : dt / 2 = sign up * lam * dx / 2) by (unfold lam; destruct up; cbn; field; assumption).
  set (dw := slope_of f) in *. set (w := PrimFromComplete q0) in *. assert (Ew : density w = c_density q0) by reflexivity.
  unfold same_prim, add_prim, char_increment. cbn [density velocity pressure species scalars]. fold lam w. rewrite Em, Ep, Ez, Ht, Ew.
  repeat split.
  - cbn [sample density]. rewrite (k_density K), <- W1, Ew. field. exact Hc.
  - intros d Hd. cbn [sample velocity]. destruct (Nat.eq_dec d ix) as [->|N].
    + rewrite transverse_ix, upd_same by exact H. rewrite (k_normal K), <- (W2 ix H). field. tauto.
    + match goal with |- context [transverse n ix ?F ?V d] => destruct (transverse_other n ix F V d H Hd N) as (i & Hi & Ei & ->) end.
      rewrite (Ezi i Hi), Ei, (k_velocity K), <- (W2 d Hd) by assumption. field.
  - cbn [sample pressure]. rewrite (k_pressure K), <- W3. field.
  - intros i. cbn [sample species]. rewrite Es, (k_species' K), <- W4. field.
  - intros i. cbn [sample scalars]. rewrite Ec, (k_scalars' K), <- W5. field.
Qed.

Theorem primitive_exact n g old L f dt dx ix up c0 :
  (ix < n)%nat -> 0 < dx -> L 1 = 1 -> f_density f 0 (- dx) <> 0 -> f_density f 0 0 <> 0 -> f_density f 0 dx <> 0 ->
  let qL := CompleteFromPrim n g (sample f 0 (- dx)) in
  let qM := CompleteFromPrim n g (sample f 0 0) in
  let qR := CompleteFromPrim n g (sample f 0 dx) in
  c0 = speed_of_sound qM ->
  affine_flow f -> linearised n 1 (f_density f 0 0) (f_velocity f ix 0 0) c0 ix f ->
  same_state n (PrimitiveReconstruct n g old qM (PrimitiveGradient L qL qM qR dx) dt dx ix up)
    (CompleteFromPrim n g (sample f (dt / 2) (sign up * (dx / 2)))).
Proof.
  intros H Hx HL N1 N2 N3 qL qM qR -> A Lin. apply same_complete.
  assert (Hv : velocity (PrimFromComplete qM) ix = f_velocity f ix 0 0) by (cbn; field; exact N2).
  pose proof (linear_coefficients _ _ _ _ _ _ _ A Lin) as K.
  apply prim_rec_flow; [exact H|lra|exact N2|rewrite Hv; exact K|apply prim_complete; exact N2|].
  apply (slope_prim_linear n _ f (sample f 0 0) (slope_of f) 1 (f_density f 0 0) (f_velocity f ix 0 0) (speed_of_sound qM) ix _ _ _ dx H Hx); [|exact K|apply prim_complete; assumption..].
  intros y. replace (y * dx / dx) with y by (field; lra). apply central_exact, HL.
Qed.

Lemma sqrt_one_gas g : Msq g = 1 -> sqrt (Msq g) = 1. Proof. intros ->. apply sqrt_1. Qed.

Lemma amplitudes_linear n g old L f dx ix : (ix < n)%nat -> 0 < dx -> L 1 = 1 -> Msq g = 1 ->
  f_density f 0 (- dx) <> 0 -> f_density f 0 0 <> 0 -> f_density f 0 dx <> 0 ->
  let qL := CompleteFromPrim n g (sample f 0 (- dx)) in
  let qM := CompleteFromPrim n g (sample f 0 0) in
  let qR := CompleteFromPrim n g (sample f 0 dx) in
  affine_flow f -> linearised n 1 (f_density f 0 0) (f_velocity f ix 0 0) (speed_of_sound qM) ix f ->
  let dK := CharacteristicsGradient n g L old qL qM qR dx ix in
  minus dK = pressure (slope_of f) - c_density qM * speed_of_sound qM * velocity (slope_of f) ix /\
  plus dK = pressure (slope_of f) + c_density qM * speed_of_sound qM * velocity (slope_of f) ix /\
  zero dK 0%nat = density (slope_of f) - 1 / (speed_of_sound qM * speed_of_sound qM) * pressure (slope_of f) /\
  (forall i, (1 <= i < n)%nat -> zero dK i = velocity (slope_of f) (Nat.modulo (ix + i) n)) /\
  (forall i, k_species dK i = species (slope_of f) i) /\ (forall i, k_scalars dK i = scalars (slope_of f) i).
Proof.
  intros H Hx HL HM N1 N2 N3 qL qM qR A Lin. pose proof (linear_coefficients _ _ _ _ _ _ _ A Lin) as K.
  assert (SL : same_prim n (slope_prim (fun l _ => l / dx) (PrimFromComplete qL) (PrimFromComplete qM) (PrimFromComplete qR)) (slope_of f)).
  { apply (slope_prim_linear n _ f (sample f 0 0) (slope_of f) 1 (f_density f 0 0) (f_velocity f ix 0 0) (speed_of_sound qM) ix _ _ _ dx H Hx); [|exact K|apply prim_complete; assumption..]. intros y. field. lra. }
  assert (SR : same_prim n (slope_prim (fun _ r => r / dx) (PrimFromComplete qL) (PrimFromComplete qM) (PrimFromComplete qR)) (slope_of f)).
  { apply (slope_prim_linear n _ f (sample f 0 0) (slope_of f) 1 (f_density f 0 0) (f_velocity f ix 0 0) (speed_of_sound qM) ix _ _ _ dx H Hx); [|exact K|apply prim_complete; assumption..]. intros y. field. lra. }
  destruct SL as (L1 & L2 & L3 & L4 & L5). destruct SR as (R1 & R2 & R3 & R4 & R5). unfold slope_prim in L1, L2, L3, L4, L5, R1, R2, R3, R4, R5. cbn [density velocity pressure species scalars] in L1, L2, L3, L4, L5, R1, R2, R3, R4, R5.
  cbn zeta. unfold CharacteristicsGradient, limit_chars. cbn [minus plus zero k_species k_scalars].
  set (wL := PrimFromComplete qL) in *. set (wM := PrimFromComplete qM) in *. set (wR := PrimFromComplete qR) in *.
  split; [|split; [|split; [|split; [|split]]]].
  - unfold ComputeAmplitudes. cbn [minus]. rewrite L2, R2, L3, R3, (sqrt_one_gas g HM), central_exact by assumption. ring.
  - unfold ComputeAmplitudes. cbn [plus]. rewrite L2, R2, L3, R3, (sqrt_one_gas g HM), central_exact by assumption. ring.
  - rewrite !amplitude_zero0, L1, R1, L3, R3. apply central_exact, HL.
  - intros i Hi. rewrite !amplitude_zero by exact Hi. rewrite L2, R2 by (apply Nat.mod_upper_bound; lia). apply central_exact, HL.
  - intros i. unfold ComputeAmplitudes. cbn [k_species]. rewrite L4, R4. apply central_exact, HL.
  - intros i. unfold ComputeAmplitudes. cbn [k_scalars]. rewrite L5, R5. apply central_exact, HL.
Qed.

Theorem characteristics_exact n g old oldg L f dt dx ix up :
  (ix < n)%nat -> 0 < dx -> L 1 = 1 -> Msq g = 1 -> f_density f 0 (- dx) <> 0 -> f_density f 0 0 <> 0 -> f_density f 0 dx <> 0 ->
  let qL := CompleteFromPrim n g (sample f 0 (- dx)) in
  let qM := CompleteFromPrim n g (sample f 0 0) in
  let qR := CompleteFromPrim n g (sample f 0 dx) in
  speed_of_sound qM <> 0 ->
  affine_flow f -> linearised n 1 (f_density f 0 0) (f_velocity f ix 0 0) (speed_of_sound qM) ix f ->
  same_state n (CharacteristicsReconstruct n g old qM (CharacteristicsGradient n g L oldg qL qM qR dx ix) dt dx ix up)
    (CompleteFromPrim n g (sample f (dt / 2) (sign up * (dx / 2)))).
Proof.
  intros H Hx HL HM N1 N2 N3 qL qM qR Hc A Lin. apply same_complete. replace (1 / Msq g) with 1 by (rewrite HM; field).
  pose proof (linear_coefficients _ _ _ _ _ _ _ A Lin) as K.
  destruct (amplitudes_linear n g oldg L f dx ix H Hx HL HM N1 N2 N3 A Lin) as (E1 & E2 & E3 & E4 & E5 & E6).
  assert (Hv : velocity (PrimFromComplete qM) ix = f_velocity f ix 0 0) by (cbn; field; exact N2).
  apply char_rec_flow; [exact H|lra|exact N2|exact Hc|rewrite Hv; exact K|apply prim_complete; exact N2|assumption..].
Qed.

Lemma characteristics_lane n g old q0 dK dt dx ix up : Msq g = 1 ->
  CharacteristicsReconstruct_lane n g old q0 dK dt dx ix up = CharacteristicsReconstruct n g old q0 dK dt dx ix up.
Proof. intros H. unfold CharacteristicsReconstruct_lane, CharacteristicsReconstruct. replace (1 / Msq g) with 1 by (rewrite H; field). reflexivity. Qed.
