(** C68: supersonic flow takes the flux of the upstream side. *)
From Coq Require Import List Reals Lra Lia Bool.
From Verif Require Import GasModel GasSpec HllemModel HllemSpec HllemProofs HllemUpwindProofs.
Import ListNotations.
Local Open Scope R_scope.

(** A contact wave which moves with velocity 3: rho = 4 | 1, p = 1, gamma = 3/2, one scalar. *)
Definition fast_left : mstate := mkM 4 [12] 20 [1] 1 (1 / 2) (3 / 2).
Definition fast_right : mstate := mkM 1 [3] (13 / 2) [0] 1 1 (3 / 2).
Lemma fast_sample : mix_admissible 1 1 fast_left /\ mix_admissible 1 1 fast_right /\ 0 < slowest_signal 1 0 fast_left fast_right.
Proof.
  split; [|split].
  - unfold mix_admissible, kinetic. cbn. repeat split; try lra.
  - unfold mix_admissible, kinetic. cbn. repeat split; try lra.
  - assert (E4 : sqrt 4 = 2) by (replace 4 with (2 * 2) by ring; apply sqrt_square; lra).
    unfold slowest_signal, roe_sound, roe_speed2, roe, speed, enthalpy. cbn. rewrite E4, sqrt_1.
    replace (Rmax (1 / 2) 1) with 1 by (symmetry; apply Rmax_right; lra).
    match goal with |- context [sqrt ?x] => assert (Q : sqrt x <= 1) end.
    { apply (Rle_trans _ (sqrt 1)); [apply sqrt_le_1_alt; lra | rewrite sqrt_1; lra]. }
    apply Rmin_glb_lt; lra.
Qed.

(** Vectorised version, any dimension: all signals to the right give the flux of the left state, all signals to the
    left that of the right state. With Larrouturou the signals are those of the states without their transversal
    velocities, as computed by the method. *)
Theorem C68_vectorised : forall lar dim Msq left right d, (1 <= dim <= 3)%nat -> (d < dim)%nat -> 0 < Msq ->
  mix_admissible dim Msq left -> mix_admissible dim Msq right -> length (m_Y left) = length (m_Y right) ->
  (0 < slowest_signal Msq d (strip lar Msq left d) (strip lar Msq right d) ->
     HllemFlux_lane lar dim Msq left right d = euler_flux Msq left d) /\
  (fastest_signal Msq d (strip lar Msq left d) (strip lar Msq right d) < 0 ->
     HllemFlux_lane lar dim Msq left right d = euler_flux Msq right d).
Proof. intros. split; [apply lane_supersonic_left | apply lane_supersonic_right]; auto. Qed.
Print Assumptions C68_vectorised.

(** Scalar version, one and two dimensions. *)
Theorem C68_scalar_right_partial : forall lar dim Msq left right d old, (1 <= dim <= 2)%nat -> (d < dim)%nat -> 0 < Msq ->
  mix_admissible dim Msq left -> mix_admissible dim Msq right -> length (m_Y left) = length (m_Y right) ->
  0 < slowest_signal Msq d (strip lar Msq left d) (strip lar Msq right d) ->
  HllemFlux lar dim Msq left right d old = euler_flux Msq left d.
Proof. exact scalar_supersonic_left. Qed.
Print Assumptions C68_scalar_right_partial.

(** To the left only without Larrouturou (see C36_wrong_sign_refuted for what happens with it). *)
Theorem C68_scalar_left_partial : forall dim Msq left right d old, (1 <= dim <= 2)%nat -> (d < dim)%nat -> 0 < Msq ->
  mix_admissible dim Msq left -> mix_admissible dim Msq right -> length (m_Y left) = length (m_Y right) ->
  fastest_signal Msq d left right < 0 -> HllemFlux false dim Msq left right d old = euler_flux Msq right d.
Proof. exact scalar_supersonic_right. Qed.
Print Assumptions C68_scalar_left_partial.

Example C68_example : HllemFlux_lane false 1 1 fast_left fast_right 0 = mkF 12 [37] 63 [3].
Proof.
  destruct fast_sample as (A & B & C).
  rewrite (proj1 (C68_vectorised false 1 1 fast_left fast_right 0 ltac:(lia) ltac:(lia) ltac:(lra) A B eq_refl) C).
  unfold euler_flux. cbn. eqs; field.
Qed.
