(** Proofs about gradients and reconstructions: other Mach numbers, inversion, positivity, both MUSCL-Hancock methods. *)
From Coq Require Import List Reals Arith Bool Lia Lra Psatz FunctionalExtensionality.
From Verif Require Import LimiterModel ReconstructModel ReconstructSpec ReconstructProofs ReconstructProofs2.
Import ListNotations.
Local Open Scope R_scope.

(** ** A flow at rest pushed by a pressure gradient *)
Definition push (M2 : R) : flow :=
  mkFlow (fun _ _ => 1) (fun _ t _ => - (/ (4 * M2)) * t) (fun _ x => 1 + / 4 * x) (fun _ _ _ => 0) (fun _ _ _ => 0).
Lemma push_affine M2 : affine_flow (push M2).
Proof.
  repeat split.
  - exists 1, 0, 0. intros. cbn. ring.
  - intros d. exists 0, 0, (- (/ (4 * M2))). intros. cbn. ring.
  - exists 1, (/ 4), 0. intros. cbn. ring.
  - intros i. exists 0, 0, 0. intros. cbn. ring.
  - intros i. exists 0, 0, 0. intros. cbn. ring.
Qed.
Lemma const_carried u k : carried u (fun _ _ => k).
Proof. intros t x. exists 0, 0. repeat split; [apply derivable_pt_lim_const|apply derivable_pt_lim_const|ring]. Qed.
Lemma push_linearised M2 c : M2 <> 0 -> linearised 1 M2 1 0 c 0 (push M2).
Proof.
  intros H. split; [|split; [intros d Hd N; exfalso; lia|split; intros i; exact (const_carried 0 0)]]. intros t x. exists 0, 0, (- (/ (4 * M2))), 0, 0, (/ 4).
  cbn [push f_density f_velocity f_pressure]. unfold ddt, ddx. split; [apply derivable_pt_lim_const|]. split; [apply derivable_pt_lim_const|].
  split. { replace (fun s => - / (4 * M2) * s) with (fun s => 0 + - / (4 * M2) * s) by (apply functional_extensionality; intros; ring). apply line_derivable. }
  split; [apply derivable_pt_lim_const|]. split; [apply derivable_pt_lim_const|]. split; [apply line_derivable|]. repeat split; field; exact H.
Qed.

Lemma push_gradient g L M2 : L 1 = 1 -> M2 <> 0 ->
  same_prim 1 (PrimitiveGradient L (CompleteFromPrim 1 g (sample (push M2) 0 (- (1)))) (CompleteFromPrim 1 g (sample (push M2) 0 0)) (CompleteFromPrim 1 g (sample (push M2) 0 1)) 1)
    (slope_of (push M2)).
Proof.
  intros HL HM. apply (slope_prim_linear 1 _ (push M2) (sample (push M2) 0 0) (slope_of (push M2)) M2 1 0 1 0 _ _ _ 1); [lia|lra| | |apply prim_complete; cbn; lra..].
  - intros y. replace (y * 1 / 1) with y by field. apply central_exact, HL.
  - apply linear_coefficients; [apply push_affine|apply push_linearised; exact HM].
Qed.

Lemma push_primitive g old L M2 dt up : L 1 = 1 -> M2 <> 0 ->
  let q x := CompleteFromPrim 1 g (sample (push M2) 0 x) in
  c_momentum (PrimitiveReconstruct 1 g old (q 0) (PrimitiveGradient L (q (- (1))) (q 0) (q 1) 1) dt 1 0 up) 0%nat = - (dt / 8).
Proof.
  intros HL HM q. destruct (push_gradient g L M2 HL HM) as (S1 & S2 & S3 & _).
  destruct (prim_rec_spec 1 old (q 0) (PrimitiveGradient L (q (- (1))) (q 0) (q 1) 1) dt 1 0 up) as (P1 & P2 & _); [lia|lra|cbn; lra|].
  cbn [PrimitiveReconstruct CompleteFromPrim c_momentum]. fold (q 0) (q 1) (q (- (1))) in S1, S2, S3. rewrite P1, P2, S1, (S2 0%nat), S3 by lia. cbn. field; exact HM.
Qed.

Lemma push_char g old oldg L M2 Minv dt up : L 1 = 1 -> 0 < gamma g -> M2 <> 0 ->
  let q x := CompleteFromPrim 1 g (sample (push M2) 0 x) in
  let dK := CharacteristicsGradient 1 g L oldg (q (- (1))) (q 0) (q 1) 1 0 in
  c_momentum (CompleteFromPrim 1 g (add_prim (PrimFromComplete (q 0)) (char_increment 1 Minv old (q 0) dK dt 1 0 up))) 0%nat = - (dt / 8) * Minv * Minv.
Proof.
  intros HL HG HM q dK. assert (C : 0 < speed_of_sound (q 0)) by (cbn; apply sqrt_lt_R0; apply Rdiv_lt_0_compat; nra).
  assert (H : minus dK = / 4 /\ plus dK = / 4 /\ zero dK 0%nat = - (1 / (speed_of_sound (q 0) * speed_of_sound (q 0))) * / 4).
  { unfold dK, CharacteristicsGradient, limit_chars. cbn [zero]. rewrite !amplitude_zero0. unfold ComputeAmplitudes. cbn [minus plus].
    set (c := speed_of_sound (q 0)) in *. clearbody c.
    repeat split; match goal with |- CentralDifference L ?a ?b = ?r => replace a with r by (cbn; field; repeat split; lra); replace b with r by (cbn; field; repeat split; lra) end; apply central_exact, HL. }
  destruct H as (Hm & Hp & Hz).
  cbn [CompleteFromPrim c_momentum add_prim density velocity char_increment transverse Nat.sub seq fold_left]. rewrite upd_same, Hm, Hp, Hz.
  set (c := speed_of_sound (q 0)) in *. clearbody c. clear Hm Hp Hz. cbn. destruct up; cbn; field; repeat split; lra.
Qed.

(** ** Inverting the reconstruction *)
Lemma invers_spec n g old old' q0 dw dt dx ix up r :
  (ix < n)%nat -> dx <> 0 -> proper g q0 -> c_density (PrimitiveReconstruct n g old q0 dw dt dx ix up) <> 0 -> pressure dw = 0 ->
  1 - dt / 2 * velocity dw ix <> 0 -> 1 - gamma g * (dt / 2) * velocity dw ix <> 0 ->
  ReconstructInvers n g old' (PrimitiveReconstruct n g old q0 dw dt dx ix up) dw dt dx ix up = Some r ->
  c_density r = c_density q0 /\ (forall d, (d < n)%nat -> c_momentum r d = c_momentum q0 d) /\ c_pressure r = c_pressure q0 /\
  (forall i, c_species r i = c_species q0 i).
Proof.
  intros H Hx (Q1 & Q2 & Q3 & Q4) Hr Hp N1 N2 E. destruct (prim_rec_spec n old q0 dw dt dx ix up H Hx ltac:(lra)) as (P1 & P2 & P3 & P4 & P5 & P6).
  unfold PrimitiveReconstruct in *. set (w' := prim_rec n old q0 dw dt dx ix up) in *. clearbody w'. cbn [CompleteFromPrim c_density] in Hr.
  assert (V : forall d, velocity (PrimFromComplete (CompleteFromPrim n g w')) d = velocity w' d) by (intros d; cbn; field; exact Hr).
  assert (Y : forall i, species (PrimFromComplete (CompleteFromPrim n g w')) i = species w' i) by (intros i; cbn; field; exact Hr).
  unfold ReconstructInvers in E. rewrite V in E. cbn zeta in E.
  replace (1 / 2 * dt) with (dt / 2) in E by field.
  set (tau := dt / 2) in *. set (eta := sign up * (1 / 2) * dx) in *.
  assert (EL : eta * (sign up * dt / dx) = tau) by (unfold eta, tau; apply eta_lambda; exact Hx). set (lam := sign up * dt / dx) in *.
  destruct (Req_EM_T (1 - tau * velocity dw ix) 0) as [Z|_]; [contradiction|]. destruct (Req_EM_T (1 - gamma g * tau * velocity dw ix) 0) as [Z|_]; [contradiction|].
  destruct (Req_EM_T (pressure dw) 0) as [_|Z]; [|contradiction]. rewrite Hp in *.
  set (u := velocity (PrimFromComplete q0) ix) in *.
  assert (Eu : (velocity w' ix - eta * velocity dw ix) / (1 - tau * velocity dw ix) = u) by (rewrite P2; field; split; lra).
  rewrite Eu in E. injection E as <-. cbn [CompleteFromPrim c_density c_momentum c_pressure c_species density velocity pressure species PrimFromComplete] in *.
  assert (Er : (density w' - eta * (1 - lam * u) * density dw) / (1 - tau * velocity dw ix) = c_density q0).
  { rewrite P1. apply (Rmult_eq_reg_r (1 - tau * velocity dw ix)); [|exact N1]. unfold Rdiv. rewrite Rmult_assoc, Rinv_l by exact N1. rewrite Rmult_1_r.
    replace (eta * (1 - lam * u) * density dw) with (eta * density dw - eta * lam * u * density dw) by ring. rewrite EL. ring. }
  split; [exact Er|]. split; [|split].
  - intros d Hd. rewrite Er. destruct (Nat.eq_dec d ix) as [->|N].
    + rewrite transverse_ix, upd_same by exact H. unfold u. cbn. field. lra.
    + match goal with |- context [transverse n ix ?F ?W d] => destruct (transverse_other n ix F W d H Hd N) as (i & _ & _ & ->) end.
      replace (density w' * velocity w' d / density w') with (velocity w' d) by (field; exact Hr). rewrite (P3 d Hd N).
      replace (eta * (velocity dw d - lam * u * velocity dw d)) with (eta * velocity dw d - eta * lam * u * velocity dw d) by ring. rewrite EL. cbn. field. lra.
  - rewrite P4, Q4. field. lra.
  - intros i. rewrite Er. replace (density w' * species w' i / density w') with (species w' i) by (field; exact Hr). rewrite P5.
    replace (eta * (species dw i - lam * u * species dw i)) with (eta * species dw i - eta * lam * u * species dw i) by ring. rewrite EL. cbn. field. lra.
Qed.
Lemma invers_defined n g old q dw dt dx ix up : pressure dw = 0 -> 1 - dt / 2 * velocity dw ix <> 0 -> 1 - gamma g * (dt / 2) * velocity dw ix <> 0 ->
  exists r, ReconstructInvers n g old q dw dt dx ix up = Some r.
Proof.
  intros Hp N1 N2. unfold ReconstructInvers. replace (1 / 2 * dt) with (dt / 2) by field.
  destruct (Req_EM_T (1 - dt / 2 * velocity dw ix) 0) as [Z|_]; [contradiction|]. destruct (Req_EM_T (1 - gamma g * (dt / 2) * velocity dw ix) 0) as [Z|_]; [contradiction|].
  destruct (Req_EM_T (pressure dw) 0) as [_|Z]; [|contradiction]. eexists; reflexivity.
Qed.
