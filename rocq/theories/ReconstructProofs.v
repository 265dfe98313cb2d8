(** Proofs about gradients and reconstructions. *)
From Coq Require Import List Reals Arith Bool Lia Lra FunctionalExtensionality.
From Verif Require Import LimiterModel ReconstructModel ReconstructSpec.
Import ListNotations.
Local Open Scope R_scope.

(** ** Loops *)
Lemma upd_same v k x : upd v k x k = x. Proof. unfold upd. now rewrite Nat.eqb_refl. Qed.
Lemma upd_other v k x j : j <> k -> upd v k x j = v j. Proof. unfold upd. intros H. apply Nat.eqb_neq in H. now rewrite H. Qed.

Lemma fold_upd (k : nat -> nat) (h : nat -> R) l v j :
  (exists i, In i l /\ k i = j /\ fold_left (fun v i => upd v (k i) (h i)) l v j = h i) \/
  ((forall i, In i l -> k i <> j) /\ fold_left (fun v i => upd v (k i) (h i)) l v j = v j).
Proof.
  revert v. induction l as [|i l IH]; intros v; cbn [fold_left]; [right; split; [intros ? []|reflexivity]|].
  destruct (IH (upd v (k i) (h i))) as [(i' & H1 & H2 & H3)|[H1 H2]]; [left; exists i'; repeat split; auto; now right|].
  destruct (Nat.eq_dec (k i) j) as [E|N].
  - left. exists i. repeat split; [now left|exact E|]. rewrite H2, <- E. apply upd_same.
  - right. split; [intros i' [<-|Hi]; auto|]. rewrite H2. apply upd_other. congruence.
Qed.

Lemma shift_other n ix i : (ix < n)%nat -> (1 <= i < n)%nat -> Nat.modulo (ix + i) n <> ix.
Proof.
  intros H1 H2 E. destruct (Nat.lt_ge_cases (ix + i) n) as [L|L]; [rewrite Nat.mod_small in E by exact L; lia|].
  replace (ix + i)%nat with (ix + i - n + 1 * n)%nat in E by lia. rewrite Nat.mod_add in E by lia. rewrite Nat.mod_small in E by lia. lia.
Qed.
Lemma shift_onto n ix j : (ix < n)%nat -> (j < n)%nat -> j <> ix -> exists i, (1 <= i < n)%nat /\ Nat.modulo (ix + i) n = j.
Proof.
  intros H1 H2 N. destruct (Nat.lt_ge_cases ix j) as [L|L].
  - exists (j - ix)%nat. split; [lia|]. replace (ix + (j - ix))%nat with j by lia. apply Nat.mod_small. lia.
  - exists (j + n - ix)%nat. split; [lia|]. replace (ix + (j + n - ix))%nat with (j + 1 * n)%nat by lia. rewrite Nat.mod_add by lia. apply Nat.mod_small. lia.
Qed.

Lemma transverse_ix n ix f v : (ix < n)%nat -> transverse n ix f v ix = v ix.
Proof.
  intros H. unfold transverse. destruct (fold_upd (fun i => Nat.modulo (ix + i) n) (fun i => f i (Nat.modulo (ix + i) n)) (seq 1 (n - 1)) v ix) as [(i & H1 & H2 & _)|[_ H2]].
  - exfalso. apply in_seq in H1. apply (shift_other n ix i H); [lia|exact H2].
  - exact H2.
Qed.
Lemma transverse_other n ix f v j : (ix < n)%nat -> (j < n)%nat -> j <> ix ->
  exists i, (1 <= i < n)%nat /\ Nat.modulo (ix + i) n = j /\ transverse n ix f v j = f i j.
Proof.
  intros H Hj N. unfold transverse. destruct (fold_upd (fun i => Nat.modulo (ix + i) n) (fun i => f i (Nat.modulo (ix + i) n)) (seq 1 (n - 1)) v j) as [(i & H1 & H2 & H3)|[H1 _]].
  - exists i. apply in_seq in H1. repeat split; try lia. rewrite <- H2. rewrite <- H2 in H3. exact H3.
  - exfalso. destruct (shift_onto n ix j H Hj N) as (i & Hi & E). apply (H1 i); [apply in_seq; lia|exact E].
Qed.

Lemma amplitude_zero n g old l r rhoc ooc2 dx ix i : (1 <= i < n)%nat ->
  zero (ComputeAmplitudes n g old l r rhoc ooc2 dx ix) i = (velocity r (Nat.modulo (ix + i) n) - velocity l (Nat.modulo (ix + i) n)) / dx.
Proof.
  intros H. unfold ComputeAmplitudes. cbn [zero].
  destruct (fold_upd (fun i => i) (fun i => (velocity r (Nat.modulo (ix + i) n) - velocity l (Nat.modulo (ix + i) n)) / dx) (seq 1 (n - 1))
    (upd old 0 ((density r - density l) / dx - ooc2 * ((pressure r - pressure l) / dx))) i) as [(i' & _ & -> & H3)|[H1 _]]; [exact H3|].
  exfalso. apply (H1 i); [apply in_seq; lia|reflexivity].
Qed.
Lemma amplitude_zero0 n g old l r rhoc ooc2 dx ix :
  zero (ComputeAmplitudes n g old l r rhoc ooc2 dx ix) 0%nat = (density r - density l) / dx - ooc2 * ((pressure r - pressure l) / dx).
Proof.
  unfold ComputeAmplitudes. cbn [zero].
  destruct (fold_upd (fun i => i) (fun i => (velocity r (Nat.modulo (ix + i) n) - velocity l (Nat.modulo (ix + i) n)) / dx) (seq 1 (n - 1))
    (upd old 0 ((density r - density l) / dx - ooc2 * ((pressure r - pressure l) / dx))) 0) as [(i' & Hi & -> & _)|[_ H2]]; [apply in_seq in Hi; lia|].
  etransitivity; [exact H2|]. apply upd_same.
Qed.

(** ** Limited slopes *)
Lemma central_exact L s : L 1 = 1 -> CentralDifference L s s = s.
Proof.
  intros H. unfold CentralDifference. destruct (Rle_dec (s * s) 0) as [Z|Z]; [nra|]. assert (s <> 0) by (intros ->; apply Z; lra).
  replace (s / s) with 1 by (field; assumption). rewrite H. lra.
Qed.

(** ** Complete states *)
Definition same_prim (n : nat) (v w : prim) : Prop :=
  density v = density w /\ (forall d, (d < n)%nat -> velocity v d = velocity w d) /\ pressure v = pressure w /\
  (forall i, species v i = species w i) /\ (forall i, scalars v i = scalars w i).
Lemma squaredNorm_ext n a b : (forall d, (d < n)%nat -> a d = b d) -> squaredNorm n a = squaredNorm n b.
Proof. intros H. induction n as [|n IH]; [reflexivity|]. cbn. rewrite IH, H by (try intros; try apply H; lia). reflexivity. Qed.
Lemma same_complete n g v w : same_prim n v w -> same_state n (CompleteFromPrim n g v) (CompleteFromPrim n g w).
Proof.
  intros (H1 & H2 & H3 & H4 & H5). unfold same_state, CompleteFromPrim. cbn. rewrite H1, H3. repeat split.
  - intros d Hd. now rewrite H2.
  - f_equal. f_equal. f_equal. f_equal. apply squaredNorm_ext. intros d Hd. now rewrite H2.
  - intros i. now rewrite H4.
  - intros i. now rewrite H5.
Qed.
Lemma prim_complete n g w : density w <> 0 -> same_prim n (PrimFromComplete (CompleteFromPrim n g w)) w.
Proof. intros H. unfold same_prim, PrimFromComplete, CompleteFromPrim. cbn. repeat split; intros; field; assumption. Qed.
Lemma same_prim_refl n w : same_prim n w w. Proof. repeat split. Qed.
Lemma same_prim_sym n v w : same_prim n v w -> same_prim n w v.
Proof. intros (H1 & H2 & H3 & H4 & H5). repeat split; try congruence; intros; symmetry; auto. Qed.
Lemma same_prim_trans n u v w : same_prim n u v -> same_prim n v w -> same_prim n u w.
Proof. intros (H1 & H2 & H3 & H4 & H5) (K1 & K2 & K3 & K4 & K5). unfold same_prim. split; [congruence|]. split; [intros; rewrite H2, K2 by assumption; reflexivity|]. split; [congruence|]. split; intros; [rewrite H4, K4|rewrite H5, K5]; reflexivity. Qed.

(** ** The reconstructed primitive variables *)
Lemma eta_lambda up dt dx : dx <> 0 -> sign up * (1 / 2) * dx * (sign up * dt / dx) = dt / 2.
Proof. intros H. destruct up; cbn; field; assumption. Qed.

Lemma prim_rec_spec n old q0 dw dt dx ix up : (ix < n)%nat -> dx <> 0 -> c_density q0 <> 0 ->
  let w := PrimFromComplete q0 in let eta := sign up * (1 / 2) * dx in let tau := dt / 2 in
  let u := velocity w ix in
  let r := prim_rec n old q0 dw dt dx ix up in
  density r = density w + eta * density dw - tau * (u * density dw + c_density q0 * velocity dw ix) /\
  velocity r ix = u + eta * velocity dw ix - tau * (u * velocity dw ix + pressure dw / c_density q0) /\
  (forall d, (d < n)%nat -> d <> ix -> velocity r d = velocity w d + eta * velocity dw d - tau * (u * velocity dw d)) /\
  pressure r = pressure w + eta * pressure dw - tau * (u * pressure dw + c_density q0 * (speed_of_sound q0 * speed_of_sound q0) * velocity dw ix) /\
  (forall i, species r i = species w i + eta * species dw i - tau * (u * species dw i)) /\
  (forall i, scalars r i = scalars w i + eta * scalars dw i - tau * (u * scalars dw i)).
Proof.
  intros H Hx Hr. cbn zeta. pose proof (eta_lambda up dt dx Hx) as E. unfold prim_rec. cbn [density velocity pressure species scalars]. rewrite <- E.
  repeat split.
  - ring.
  - rewrite transverse_ix, upd_same by exact H. ring.
  - intros d Hd N. destruct (transverse_other n ix (fun _ iy => velocity (PrimFromComplete q0) iy + sign up * (1 / 2) * dx * (velocity dw iy - sign up * dt / dx * velocity (PrimFromComplete q0) ix * velocity dw iy))
      (upd old ix (velocity (PrimFromComplete q0) ix + sign up * (1 / 2) * dx * (velocity dw ix - sign up * dt / dx * (velocity (PrimFromComplete q0) ix * velocity dw ix + pressure dw / c_density q0)))) d H Hd N) as (i & _ & _ & ->). ring.
  - ring.
  - intros i. ring.
  - intros i. ring.
Qed.

(** ** Affine flows *)
Lemma line_derivable k c s : derivable_pt_lim (fun s => k + c * s) s c.
Proof.
  assert (H : derivable_pt_lim (plus_fct (fun _ => k) (mult_real_fct c id)) s (0 + c * 1)).
  { apply derivable_pt_lim_plus; [apply derivable_pt_lim_const|apply derivable_pt_lim_scal, derivable_pt_lim_id]. }
  replace (0 + c * 1) with c in H by ring. exact H.
Qed.
Lemma affine_ddt a b c f t x d : (forall t x, f t x = a + b * x + c * t) -> ddt f t x d -> d = c.
Proof.
  intros E H. apply (uniqueness_limite (fun s => f s x) t); [exact H|]. replace (fun s => f s x) with (fun s => (a + b * x) + c * s) by (apply functional_extensionality; intros; symmetry; apply E).
  apply line_derivable.
Qed.
Lemma affine_ddx a b c f t x d : (forall t x, f t x = a + b * x + c * t) -> ddx f t x d -> d = b.
Proof.
  intros E H. apply (uniqueness_limite (fun y => f t y) x); [exact H|]. replace (fun y => f t y) with (fun y => (a + c * t) + b * y) by (apply functional_extensionality; intros; rewrite E; ring).
  apply line_derivable.
Qed.
Lemma ddt_affine a b c t x : ddt (fun t x => a + b * x + c * t) t x c.
Proof. apply line_derivable. Qed.
Lemma ddx_affine a b c t x : ddx (fun t x => a + b * x + c * t) t x b.
Proof. unfold ddx. replace (fun y => a + b * y + c * t) with (fun y => (a + c * t) + b * y) by (apply functional_extensionality; intros; ring). apply line_derivable. Qed.
Lemma affine_carried u f : affine f -> carried u f -> exists a b, forall t x, f t x = a + b * x - u * b * t.
Proof.
  intros (a & b & c & E) H. destruct (H 0 0) as (ft & fx & H1 & H2 & H3). apply (affine_ddt a b c) in H1; [|exact E]. apply (affine_ddx a b c) in H2; [|exact E]. subst.
  exists a, b. intros t x. rewrite E. replace c with (- (u * b)) by lra. ring.
Qed.

(** What the linearised equations say about an affine flow *)
Record coefficients (n : nat) (M2 rho u c : R) (ix : nat) (f : flow) (w dw : prim) : Prop := mkCoefficients {
  k_density : forall t x, f_density f t x = density w + density dw * x - (u * density dw + rho * velocity dw ix) * t;
  k_normal : forall t x, f_velocity f ix t x = velocity w ix + velocity dw ix * x - (u * velocity dw ix + pressure dw / (M2 * rho)) * t;
  k_velocity : forall d t x, (d < n)%nat -> d <> ix -> f_velocity f d t x = velocity w d + velocity dw d * x - u * velocity dw d * t;
  k_pressure : forall t x, f_pressure f t x = pressure w + pressure dw * x - (u * pressure dw + rho * (c * c) * velocity dw ix) * t;
  k_species' : forall i t x, f_species f i t x = species w i + species dw i * x - u * species dw i * t;
  k_scalars' : forall i t x, f_scalars f i t x = scalars w i + scalars dw i * x - u * scalars dw i * t }.
Arguments k_density {n M2 rho u c ix f w dw}. Arguments k_normal {n M2 rho u c ix f w dw}. Arguments k_velocity {n M2 rho u c ix f w dw}.
Arguments k_pressure {n M2 rho u c ix f w dw}. Arguments k_species' {n M2 rho u c ix f w dw}. Arguments k_scalars' {n M2 rho u c ix f w dw}.

(** The slope of a flow at the initial time *)
Definition slope_of (f : flow) : prim :=
  mkPrim (f_density f 0 1 - f_density f 0 0) (fun d => f_velocity f d 0 1 - f_velocity f d 0 0) (f_pressure f 0 1 - f_pressure f 0 0)
    (fun i => f_species f i 0 1 - f_species f i 0 0) (fun i => f_scalars f i 0 1 - f_scalars f i 0 0).

Lemma linear_coefficients n M2 rho u c ix f : affine_flow f -> linearised n M2 rho u c ix f -> coefficients n M2 rho u c ix f (sample f 0 0) (slope_of f).
Proof.
  intros (A1 & A2 & A3 & A4 & A5) (L1 & L2 & L3 & L4).
  destruct (L1 0 0) as (rt & rx & ut & ux & pt & px & D1 & D2 & D3 & D4 & D5 & D6 & E1 & E2 & E3).
  destruct A1 as (ra & rb & rc & Er). destruct (A2 ix) as (ua & ub & uc & Eu). destruct A3 as (pa & pb & pc & Ep).
  apply (affine_ddt _ _ _ _ _ _ _ Er) in D1. apply (affine_ddx _ _ _ _ _ _ _ Er) in D2. apply (affine_ddt _ _ _ _ _ _ _ Eu) in D3.
  apply (affine_ddx _ _ _ _ _ _ _ Eu) in D4. apply (affine_ddt _ _ _ _ _ _ _ Ep) in D5. apply (affine_ddx _ _ _ _ _ _ _ Ep) in D6. subst.
  assert (S1 : f_density f 0 1 - f_density f 0 0 = rb) by (rewrite !Er; ring). assert (S2 : f_velocity f ix 0 1 - f_velocity f ix 0 0 = ub) by (rewrite !Eu; ring).
  assert (S3 : f_pressure f 0 1 - f_pressure f 0 0 = pb) by (rewrite !Ep; ring).
  constructor; cbn [sample slope_of density velocity pressure species scalars]; rewrite ?S1, ?S2, ?S3.
  - intros t x. rewrite !Er. replace rc with (- (u * rb + rho * ub)) by lra. ring.
  - intros t x. rewrite !Eu. replace uc with (- (u * ub + pb / (M2 * rho))) by lra. ring.
  - intros d t x Hd N. destruct (affine_carried u _ (A2 d) (L2 d Hd N)) as (a & b & E). rewrite !E. ring.
  - intros t x. rewrite !Ep. replace pc with (- (u * pb + rho * (c * c) * ub)) by lra. ring.
  - intros i t x. destruct (affine_carried u _ (A4 i) (L3 i)) as (a & b & E). rewrite !E. ring.
  - intros i t x. destruct (affine_carried u _ (A5 i) (L4 i)) as (a & b & E). rewrite !E. ring.
Qed.

(** The reconstruction from a cell [q0] with slopes [dw] as a value of the flow *)
Lemma prim_rec_flow n old q0 dw dt dx ix up f : (ix < n)%nat -> dx <> 0 -> c_density q0 <> 0 ->
  coefficients n 1 (c_density q0) (velocity (PrimFromComplete q0) ix) (speed_of_sound q0) ix f (sample f 0 0) (slope_of f) ->
  same_prim n (PrimFromComplete q0) (sample f 0 0) -> same_prim n dw (slope_of f) ->
  same_prim n (prim_rec n old q0 dw dt dx ix up) (sample f (dt / 2) (sign up * (dx / 2))).
Proof.
  intros H Hx Hr K (W1 & W2 & W3 & W4 & W5) (S1 & S2 & S3 & S4 & S5).
  destruct (prim_rec_spec n old q0 dw dt dx ix up H Hx Hr) as (P1 & P2 & P3 & P4 & P5 & P6).
  unfold same_prim. cbn [sample density velocity pressure species scalars] in *.
  repeat split.
  - rewrite P1, (k_density K), W1, S1, S2 by exact H. cbn [sample slope_of density velocity pressure]. field.
  - intros d Hd. destruct (Nat.eq_dec d ix) as [->|N].
    + rewrite P2, (k_normal K). rewrite (W2 ix H) at 1. rewrite (S2 ix H), S3. cbn [sample slope_of density velocity pressure]. field. exact Hr.
    + rewrite (P3 d Hd N), (k_velocity K) by assumption. rewrite (W2 d Hd) at 1. rewrite (S2 d Hd). cbn [sample slope_of density velocity pressure]. field.
  - rewrite P4, (k_pressure K), W3, S2, S3 by exact H. cbn [sample slope_of density velocity pressure]. field.
  - intros i. rewrite P5, (k_species' K), W4, S4. cbn [sample slope_of species]. field.
  - intros i. rewrite P6, (k_scalars' K), W5, S5. cbn [sample slope_of scalars]. field.
Qed.
