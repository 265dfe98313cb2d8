(** Properties C30, C31 and C61: limiters and MUSCL-Hancock. *)
From Coq Require Import List ZArith Reals Lra Lia.
From Verif Require Import FluxModel FluxSpec FluxProofs FluxExamples LimiterModel LimiterSpec LimiterProofs.
Import ListNotations.
Local Open Scope R_scope.

(** ** C30 *)

(** MinMod and van Leer slopes: symmetric, zero at extrema, sign of the data, at most twice the smaller
    one-sided difference, exact for linear data (see [limited]). *)
Theorem C30_limiters : limited MinMod /\ limited VanLeer.
Proof. split; [exact minmod_limited | exact vanleer_limited]. Qed.
Print Assumptions C30_limiters.

(** The limiters of the gradient methods, written as functions of the ratio of differences, give the same
    slopes; the vectorised version agrees in every lane for every limiter. *)
Theorem C30_gradient_limiters : forall a b,
  CentralDifference MinModLimiter a b = MinMod a b /\ CentralDifference VanLeerLimiter a b = VanLeer a b /\
  (forall lim, CentralDifference_lane lim a b = CentralDifference lim a b).
Proof. intros a b. split; [apply central_minmod | split; [apply central_vanleer | intros; apply central_lane]]. Qed.
Print Assumptions C30_gradient_limiters.

(** The unlimited choices: both preserve linear data resp. vanish, and the unlimited slope is not limited
    (at an extremum it does not vanish). *)
Theorem C30_unlimited : (forall a, NoLimiter a a = a) /\ ~ limited NoLimiter /\
  (forall a b, CentralDifference UpwindLimiter a b = NoGradient a b) /\
  (forall a b, 0 < a * b -> CentralDifference NoLimiter2 a b = NoLimiter a b).
Proof.
  split; [|split; [|split]].
  - intros; unfold NoLimiter; lra.
  - intros L. pose proof (lim_extremum _ L 1 0 ltac:(lra)). unfold NoLimiter in *. lra.
  - intros; unfold CentralDifference, UpwindLimiter, NoGradient. destruct (Rle_dec _ _); lra.
  - intros; unfold CentralDifference, NoLimiter2, NoLimiter. destruct (Rle_dec _ _); lra.
Qed.
Print Assumptions C30_unlimited.

Example C30_example : MinMod 1 3 = 1 /\ VanLeer 1 3 = 3 / 2 /\ MinMod (-3) (-1) = -1 /\ VanLeer 1 (-3) = 0.
Proof. unfold MinMod, VanLeer. cbv zeta. split; [cases; lra|]. split; [cases; lra|]. split; cases; lra. Qed.

(** ** C31 *)

(** Interface values lie between the averages of the cells on both sides of the interface. *)
Theorem C31_no_new_extrema : forall phi qL qM qR, limited phi ->
  inside qM (qM + 1 / 2 * LimitedSlope phi qL qM qR) qR /\ inside qL (qM - 1 / 2 * LimitedSlope phi qL qM qR) qM.
Proof. intros; apply limited_inside; auto. Qed.
Print Assumptions C31_no_new_extrema.

(** Constant data: the MUSCL-Hancock flux is the physical flux of the constant state, for any equation, any
    consistent base method, any limited slope (also the unlimited ones), and in all three variants. *)
Theorem C31_constant_data : forall (S K : Type) (cons flux : S -> K -> R) (complete : (K -> R) -> S)
    (base : S -> S -> K -> R) phi dt dx q k,
  complete (cons q) = q -> (forall k, base q q k = flux q k) -> phi 0 0 = 0 ->
  MusclFlux S K cons flux complete base phi dt dx q q q q k = flux q k /\
  MusclFlux_gradients S K cons flux complete base dt dx q q (fun _ => 0) (fun _ => 0) k = flux q k /\
  (forall v0 v1 v2 v3, MusclFlux_masked_open S K cons flux complete base phi dt dx v0 v1 v2 v3 q q q q k = flux q k).
Proof.
  intros S K cons flux cfc base phi dt dx q k Hq Hb Hp. split; [|split].
  - rewrite muscl_constant; auto.
  - rewrite muscl_constant_gradients; auto.
  - intros. rewrite muscl_masked_constant; auto.
Qed.
Print Assumptions C31_constant_data.

(** All limiters of the library satisfy the hypothesis on constant data. *)
Theorem C31_limiters_flat : MinMod 0 0 = 0 /\ VanLeer 0 0 = 0 /\ NoLimiter 0 0 = 0 /\ NoGradient 0 0 = 0.
Proof.
  split; [apply limited_zero, minmod_limited|]. split; [apply limited_zero, vanleer_limited|].
  unfold NoLimiter, NoGradient. lra.
Qed.
Print Assumptions C31_limiters_flat.

(** Cut cells: with four open cells the flux is the regular one; where outer cells are covered the method
    falls back to the base method on the cell averages. *)
Theorem C31_cut_cells : forall (S K : Type) (cons flux : S -> K -> R) (complete : (K -> R) -> S)
    (base : S -> S -> K -> R) phi dt dx v0 v1 v2 v3 s0 s1 s2 s3,
  (0 < v0 -> 0 < v1 -> 0 < v2 -> 0 < v3 ->
     MusclFlux_masked_open S K cons flux complete base phi dt dx v0 v1 v2 v3 s0 s1 s2 s3
     = MusclFlux S K cons flux complete base phi dt dx s0 s1 s2 s3) /\
  (phi 0 0 = 0 -> complete (cons s1) = s1 -> complete (cons s2) = s2 -> v0 <= 0 -> v3 <= 0 ->
     MusclFlux_masked_open S K cons flux complete base phi dt dx v0 v1 v2 v3 s0 s1 s2 s3 = base s1 s2).
Proof. intros. split; intros; [apply muscl_masked_all | apply muscl_masked_first_order]; auto. Qed.
Print Assumptions C31_cut_cells.

(** Burgers' equation with constant state 3: flux 9/2.  And a reconstruction with different slopes. *)
Example C31_example :
  ScalarMuscl BurgersFlux BurgersRiemann MinMod (1 / 10) 1 3 3 3 3 = 9 / 2 /\
  inside 2 (2 + 1 / 2 * LimitedSlope VanLeer 1 2 5) 5 /\ LimitedSlope VanLeer 1 2 5 = 3 / 2.
Proof.
  split; [|split].
  - unfold ScalarMuscl.
    rewrite (proj1 (C31_constant_data R unit (fun q _ => q) (fun q _ => BurgersFlux q) (fun q => q tt)
      (fun l r _ => GodunovFlux BurgersFlux BurgersRiemann l r) MinMod (1 / 10) 1 3 tt eq_refl
      (fun _ => burgers_consistent 3) (proj1 C31_limiters_flat))). unfold BurgersFlux. lra.
  - apply (C31_no_new_extrema VanLeer 1 2 5 vanleer_limited).
  - unfold LimitedSlope, VanLeer. cbv zeta. destruct (Rlt_dec 0 (2 * (2 - 1) * (5 - 2))); lra.
Qed.

(** ** C61: MUSCL-Hancock for linear advection *)

(** One step, any data: new values lie within the old neighbours if dt is at most the stable time step. *)
Theorem C61_maximum_principle : forall v phi dt dx u i, limited phi -> 0 < dx -> 0 <= dt ->
  dt_at_most 1 dt (GodunovStableDt (AdvectionSignals v) dx (u (i - 1)%Z) (u i)) ->
  between (min3 (u (i - 1)%Z) (u i) (u (i + 1)%Z))
    (fv_update dt dx (fun j => ScalarMuscl (AdvectionFlux v) (AdvectionRiemann v) phi dt dx
                                 (u (j - 2)%Z) (u (j - 1)%Z) (u j) (u (j + 1)%Z)) u i)
    (max3 (u (i - 1)%Z) (u i) (u (i + 1)%Z)).
Proof. intros v phi dt dx u i L Hx Ht Hd. apply (muscl_cell_max v phi L dt dx); auto. eapply advection_dt; eauto. Qed.
Print Assumptions C61_maximum_principle.

(** Patch of any size, any number of stable steps: total variation does not increase, bounds are kept. *)
Theorem C61_total_variation : forall v phi dx n dts u, limited phi -> 0 < dx -> (0 < n)%Z ->
  let step := muscl_step (AdvectionFlux v) (AdvectionRiemann v) phi dx n in
  let final := muscl_steps (AdvectionFlux v) (AdvectionRiemann v) phi dx n dts u in
  stable_steps step 1 (GodunovStableDt (AdvectionSignals v) dx) n dts u ->
  total_variation n final <= total_variation n u /\
  (forall lo hi, (forall i, (0 <= i < n)%Z -> between lo (u i) hi) -> forall i, (0 <= i < n)%Z -> between lo (final i) hi).
Proof. intros v phi dx n dts u L Hx Hn step final Hs. apply muscl_steps_ok; auto. Qed.
Print Assumptions C61_total_variation.

(** Linear data are transported exactly for any time step (second order consistency), with every limiter
    that preserves linear data. *)
Theorem C61_linear_exact : forall v phi dt dx a b i, (forall x, phi x x = x) -> 0 < dx ->
  let u := fun j => a + b * IZR j in
  fv_update dt dx (fun j => ScalarMuscl (AdvectionFlux v) (AdvectionRiemann v) phi dt dx
                              (u (j - 2)%Z) (u (j - 1)%Z) (u j) (u (j + 1)%Z)) u i
  = a + b * (IZR i - v * dt / dx).
Proof. intros v phi dt dx a b i L Hx u. apply (muscl_linear v phi dt dx a b i L Hx). Qed.
Print Assumptions C61_linear_exact.

(** Velocity 2, dx = 1, dt = 1/4 (half the stable time step) on the data -1, 1, 0 with the MinMod limiter. *)
Example C61_example :
  stable_steps (muscl_step (AdvectionFlux 2) (AdvectionRiemann 2) MinMod 1 3) 1 (GodunovStableDt (AdvectionSignals 2) 1) 3
    [1 / 4; 1 / 2] fx_burgers /\
  muscl_step (AdvectionFlux 2) (AdvectionRiemann 2) MinMod 1 3 fx_burgers (1 / 4) 1 = 0.
Proof.
  split.
  - cbn [stable_steps].
    assert (P : forall l r c, c <= 1 / 2 -> dt_at_most 1 c (GodunovStableDt (AdvectionSignals 2) 1 l r)).
    { intros. unfold GodunovStableDt, AdvectionSignals, max_abs. cbn [fold_left]. rewrite (Rabs_right 2), Rmax_right by lra.
      unfold divide_dt. destruct (Req_EM_T 2 0); [lra|]. cbn [dt_at_most]. lra. }
    split; [lra|]. split; [intros; apply P; lra|]. split; [lra|]. split; [intros; apply P; lra | exact I].
  - unfold muscl_step, fv_update. cbv zeta. rewrite !advection_muscl_flux by lra.
    destruct (Rlt_dec 0 2); [|lra]. unfold LimitedSlope, transmissive, fx_burgers, MinMod. cbn. cases; lra.
Qed.
