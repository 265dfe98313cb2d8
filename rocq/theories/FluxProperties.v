(** Properties C26-C29: two-point fluxes and first order schemes. *)
From Coq Require Import List ZArith Reals Lra Lia.
From Verif Require Import FluxModel FluxSpec FluxProofs FluxExamples.
Import ListNotations.
Local Open Scope R_scope.

(** ** C26 *)

(** Equal states: the flux is the physical flux in every component (and the returned interface pressure is
    the pressure of the states).  [HllDs > 0] is the assertion checked by the code. *)
Theorem C26_consistent : forall (S K : Type) (cons flux : S -> K -> R) (speeds : S -> S -> R * R) (p : S -> R) q k,
  0 < HllDs S speeds q q ->
  HllFlux S K cons flux speeds q q k = flux q k /\ HllPressure S speeds p q q = p q.
Proof. intros. split; [apply hll_consistent; auto | apply hll_pressure_consistent; auto]. Qed.
Print Assumptions C26_consistent.

(** The intermediate state and the flux satisfy the jump conditions at both signals, in every component. *)
Theorem C26_rankine_hugoniot : forall (S K : Type) (cons flux : S -> K -> R) (speeds : S -> S -> R * R)
    (complete : (K -> R) -> S) l r,
  (forall q k, cons (complete q) k = q k) ->
  fst (speeds l r) < snd (speeds l r) -> fst (speeds l r) <= 0 <= snd (speeds l r) ->
  forall k,
  rankine_hugoniot (fst (speeds l r)) (flux l k) (HllFlux S K cons flux speeds l r k)
    (cons l k) (cons (HllRiemann S K cons flux speeds complete l r) k) /\
  rankine_hugoniot (snd (speeds l r)) (HllFlux S K cons flux speeds l r k) (flux r k)
    (cons (HllRiemann S K cons flux speeds complete l r) k) (cons r k).
Proof. intros. apply hll_rh; auto. Qed.
Print Assumptions C26_rankine_hugoniot.

(** If all signals move to the right (left), flux and interface state are those of the left (right) state. *)
Theorem C26_upwind : forall (S K : Type) (cons flux : S -> K -> R) (speeds : S -> S -> R * R)
    (complete : (K -> R) -> S) l r,
  fst (speeds l r) <= snd (speeds l r) ->
  (0 < fst (speeds l r) ->
     (forall k, HllFlux S K cons flux speeds l r k = flux l k) /\ HllRiemann S K cons flux speeds complete l r = l) /\
  (snd (speeds l r) < 0 ->
     (forall k, HllFlux S K cons flux speeds l r k = flux r k) /\ HllRiemann S K cons flux speeds complete l r = r) /\
  (fst (speeds l r) = 0 -> 0 < snd (speeds l r) -> forall k, HllFlux S K cons flux speeds l r k = flux l k) /\
  (snd (speeds l r) = 0 -> fst (speeds l r) < 0 -> forall k, HllFlux S K cons flux speeds l r k = flux r k).
Proof.
  intros S K cons flux sp cfc l r Ho. split; [|split; [|split]].
  - intros H. split; [intros k; apply hll_right_going; lra|]. unfold HllRiemann. cbv zeta. destruct (Rlt_dec 0 (fst (sp l r))); [reflexivity | lra].
  - intros H. split; [intros k; apply hll_left_going; lra|]. unfold HllRiemann. cbv zeta. destruct (Rlt_dec 0 (fst (sp l r))); [lra|].
    destruct (Rlt_dec (snd (sp l r)) 0); [reflexivity | lra].
  - intros; apply hll_right_going; lra.
  - intros; apply hll_left_going; lra.
Qed.
Print Assumptions C26_upwind.

(** Every lane of the vectorised fluxes is the scalar flux of that lane; lanes without an open face get a
    zero flux provided the masked physical flux is zero there. *)
Theorem C26_lanes : forall (S K : Type) (cons flux : S -> K -> R) (speeds : S -> S -> R * R)
    (mflux : bool -> S -> K -> R) (mspeeds : bool -> S -> S -> R * R) l r k beta,
  (forall q k, mflux true q k = flux q k) -> (forall q k, mflux false q k = 0) ->
  (forall l r, mspeeds true l r = speeds l r) ->
  0 < HllDs S speeds l r ->
  HllFlux_lane S K cons flux speeds l r k = HllFlux S K cons flux speeds l r k /\
  (0 < beta -> HllFlux_masked_lane S K cons mflux mspeeds beta l r k = HllFlux S K cons flux speeds l r k) /\
  (beta <= 0 -> HllFlux_masked_lane S K cons mflux mspeeds beta l r k = 0).
Proof.
  intros S K cons flux sp mf ms l r k beta H1 H2 H3 Hd. split; [apply hll_lane; auto|]. split; intros Hb; unfold HllFlux_masked_lane; cbv zeta.
  - destruct (Rlt_dec 0 beta); [|lra]. rewrite H3, !H1, (Rmin_comm _ 0), (Rmax_comm _ 0). reflexivity.
  - destruct (Rlt_dec 0 beta); [lra|]. rewrite !H2. field.
Qed.
Print Assumptions C26_lanes.

(** A subsonic pair: speeds -2 and 2, the flux is 3 resp. 10 and the intermediate state (5/2, 2). *)
Example C26_example :
  let F := HllFlux (bool -> R) bool (fun q => q) fx_flux fx_speeds fx_left fx_right in
  let Q := HllRiemann (bool -> R) bool (fun q => q) fx_flux fx_speeds (fun q => q) fx_left fx_right in
  0 < HllDs (bool -> R) fx_speeds fx_left fx_right /\
  fst (fx_speeds fx_left fx_right) < 0 < snd (fx_speeds fx_left fx_right) /\
  F false = 2 /\ F true = 10 /\ Q false = 5 / 2 /\ Q true = 2.
Proof.
  cbv zeta. unfold HllDs, HllFlux, HllRiemann, fx_speeds, fx_flux, fx_left, fx_right. cbn [fst snd].
  rewrite (Rmin_right 0 (-2)), (Rmax_right 0 2) by lra.
  destruct (Req_EM_T (-2) 2); [lra|]. destruct (Rlt_dec 0 (-2)); [lra|]. destruct (Rlt_dec 2 0); [lra|].
  split; [lra|]. split; [lra|]. split; [lra|]. split; [lra|]. split; lra.
Qed.

(** ** C27 *)

(** One cell between any two neighbours: if a conserved quantity is transported with the velocity of the
    cells, the signal speeds enclose the velocities and dt is at most half the stable time step of both
    faces, then the quantity stays positive; the code's assertion holds at both faces. *)
Theorem C27_density_stays_positive : forall (S K : Type) (cons flux : S -> K -> R) (speeds : S -> S -> R * R)
    (velocity : S -> R) (rho : K) l m r dt dx,
  0 < dx -> 0 <= dt ->
  (forall q, q = l \/ q = m \/ q = r -> flux q rho = cons q rho * velocity q) ->
  enclose (speeds l m) (velocity l) (velocity m) -> enclose (speeds m r) (velocity m) (velocity r) ->
  dt_at_most (1 / 2) dt (HllStableDt S speeds dx l m) -> dt_at_most (1 / 2) dt (HllStableDt S speeds dx m r) ->
  0 < cons l rho -> 0 < cons m rho -> 0 < cons r rho ->
  0 < HllDs S speeds l m /\ 0 < HllDs S speeds m r /\
  0 < cons m rho + dt / dx * (HllFlux S K cons flux speeds l m rho - HllFlux S K cons flux speeds m r rho).
Proof.
  intros. split; [eapply encloses_ds; eassumption|]. split; [eapply encloses_ds; eassumption|].
  eapply hll_positive; eauto; lra.
Qed.
Print Assumptions C27_density_stays_positive.

(** Shallow water with its own signal speeds: after any number of steps, each at most half the stable step
    of the moment, all water heights of a patch of any size are positive. *)
Theorem C27_water_height : forall gravity dx n dir dts u,
  0 < gravity -> 0 < dx -> (0 < n)%Z ->
  (forall i, (0 <= i < n)%Z -> 0 < u i Height) ->
  let method := HllFlux _ _ (fun q => q) (ShallowWaterFlux gravity dir) (ShallowWaterSignalVelocities gravity dir) in
  stable_steps (system_step method dx n) (1 / 2) (HllStableDt _ (ShallowWaterSignalVelocities gravity dir) dx) n dts u ->
  forall i, (0 <= i < n)%Z -> 0 < system_steps method dx n dts u i Height.
Proof. intros gravity dx n dir dts u Hg Hx Hn Hu method Hs. apply sw_positive; auto. Qed.
Print Assumptions C27_water_height.

(** Two cells of water with heights 1 and 2 and colliding flow, gravity 9, one step of length 1/20. *)
Example C27_example :
  (forall i, (0 <= i < 2)%Z -> 0 < fx_water i Height) /\
  stable_steps (system_step (HllFlux _ _ (fun q => q) (ShallowWaterFlux 9 false) (ShallowWaterSignalVelocities 9 false)) 1 2)
    (1 / 2) (HllStableDt _ (ShallowWaterSignalVelocities 9 false) 1) 2 [1 / 20] fx_water.
Proof.
  split.
  - intros i Hi. unfold fx_water. destruct (i =? 0)%Z; lra.
  - cbn [stable_steps]. split; [lra|]. split; [|exact I]. intros i Hi.
    assert (S9 : sqrt (9 * 1) = 3) by (replace (9 * 1) with (3 * 3) by ring; apply sqrt_square; lra).
    assert (S18 : 4 < sqrt (9 * 2) < 5).
    { split; [rewrite <- (sqrt_square 4) by lra | rewrite <- (sqrt_square 5) by lra]; apply sqrt_lt_1; lra. }
    assert (P : forall a b, (a = 0 \/ a = 1)%Z -> (b = 0 \/ b = 1)%Z ->
      dt_at_most (1 / 2) (1 / 20) (HllStableDt _ (ShallowWaterSignalVelocities 9 false) 1 (fx_water a) (fx_water b))).
    { intros a b Ha Hb. unfold HllStableDt. rewrite max_abs2. unfold divide_dt, dt_at_most.
      set (sp := ShallowWaterSignalVelocities 9 false (fx_water a) (fx_water b)).
      assert (B : -10 <= fst sp <= 10 /\ -10 <= snd sp <= 10).
      { unfold sp, ShallowWaterSignalVelocities, fx_water, momentum_of. cbv zeta. cbn [fst snd].
        destruct Ha as [-> | ->]; destruct Hb as [-> | ->]; cbn [Z.eqb]; rewrite ?S9; minmax; lra. }
      destruct (Req_EM_T _ 0); [trivial|]. set (M := Rmax _ _) in *.
      assert (HM : 0 <= M <= 10).
      { unfold M. split; [eapply Rle_trans; [apply Rabs_pos | apply Rmax_r]|].
        apply Rmax_lub; [apply Rmax_lub; [lra|]|]; apply Rabs_le; lra. }
      apply Rmult_le_reg_r with M; [lra|]. replace (1 / 2 * (1 / M) * M) with (1 / 2) by (field; lra). lra. }
    apply P; unfold nearest; lia.
Qed.

(** ** C28 *)

(** One step, any surrounding data: the new value of a cell lies between the smallest and the largest of the
    three old neighbours, if dt is at most the stable time step of the stencils of these cells. *)
Theorem C28_maximum_principle : forall u dt dx i, 0 < dx -> 0 <= dt ->
  (forall j, (i - 1 <= j <= i + 2)%Z -> dt_at_most 1 dt (GodunovStableDt BurgersSignals dx (u (j - 1)%Z) (u j))) ->
  between (min3 (u (i - 1)%Z) (u i) (u (i + 1)%Z))
    (fv_update dt dx (face_fluxes (GodunovFlux BurgersFlux BurgersRiemann) u) u i)
    (max3 (u (i - 1)%Z) (u i) (u (i + 1)%Z)).
Proof. intros; apply burgers_cell_max; auto. Qed.
Print Assumptions C28_maximum_principle.

(** A patch of any size, any number of steps: all values stay within the bounds of the initial data. *)
Theorem C28_bounds : forall dx n dts u lo hi, 0 < dx -> (0 < n)%Z ->
  let method := GodunovFlux BurgersFlux BurgersRiemann in
  stable_steps (scalar_step method dx n) 1 (GodunovStableDt BurgersSignals dx) n dts u ->
  (forall i, (0 <= i < n)%Z -> between lo (u i) hi) ->
  forall i, (0 <= i < n)%Z -> between lo (scalar_steps method dx n dts u i) hi.
Proof.
  intros dx n dts u lo hi Hx Hn method. apply (patch_bounds_steps _ (GodunovStableDt BurgersSignals dx)); auto.
  intros; apply burgers_cell_max; auto.
Qed.
Print Assumptions C28_bounds.

(** A patch of any size, any number of steps: the total variation does not increase. *)
Theorem C28_total_variation : forall dx n dts u, 0 < dx -> (0 < n)%Z ->
  let method := GodunovFlux BurgersFlux BurgersRiemann in
  stable_steps (scalar_step method dx n) 1 (GodunovStableDt BurgersSignals dx) n dts u ->
  total_variation n (scalar_steps method dx n dts u) <= total_variation n u.
Proof.
  intros dx n dts u Hx Hn method. apply (patch_tv_steps _ (GodunovStableDt BurgersSignals dx)); auto.
  intros; apply burgers_window; auto.
Qed.
Print Assumptions C28_total_variation.

(** The same for any part of a patch and any data around it: variation only enters through the two ends. *)
Theorem C28_local_variation : forall u dt dx a m, 0 < dx -> 0 <= dt ->
  (forall j, (a <= j <= a + Z.of_nat m + 1)%Z -> dt_at_most 1 dt (GodunovStableDt BurgersSignals dx (u (j - 1)%Z) (u j))) ->
  variation (fv_update dt dx (face_fluxes (GodunovFlux BurgersFlux BurgersRiemann) u) u) a m
  <= variation u (a - 1)%Z (m + 2).
Proof.
  intros. eapply Rle_trans; [apply burgers_window; auto|].
  replace (m + 2)%nat with (S (S m)) by lia. cbn [variation]. replace (a - 1 + 1)%Z with a by lia.
  replace (variation u (a + 1)%Z (S m)) with (variation u (a + 1)%Z (S m)) by reflexivity.
  assert (E : Rabs (u (a + 1)%Z - u a) + variation u (a + 1)%Z m = variation u a (S m)) by reflexivity.
  rewrite E, variation_snoc. lra.
Qed.
Print Assumptions C28_local_variation.

(** The vectorised Riemann solver agrees with the scalar one in every lane. *)
Theorem C28_lanes : forall l r, BurgersRiemann_lane l r = BurgersRiemann l r.
Proof. exact burgers_lane. Qed.
Print Assumptions C28_lanes.

(** A rarefaction through the sonic point and a shock: values -1, 1, 0 with dx = dt = 1; the step is stable
    and gives -1/2, 1/2, 1/2 (variation 3 becomes 1). *)
Example C28_example :
  stable_steps (scalar_step (GodunovFlux BurgersFlux BurgersRiemann) 1 3) 1 (GodunovStableDt BurgersSignals 1) 3 [1] fx_burgers /\
  scalar_step (GodunovFlux BurgersFlux BurgersRiemann) 1 3 fx_burgers 1 0 = - 1 / 2 /\
  scalar_step (GodunovFlux BurgersFlux BurgersRiemann) 1 3 fx_burgers 1 1 = 1 / 2 /\
  scalar_step (GodunovFlux BurgersFlux BurgersRiemann) 1 3 fx_burgers 1 2 = 1 / 2 /\
  total_variation 3 fx_burgers = 3.
Proof.
  assert (E : forall i, (i <= 0 -> nearest 3 i = 0)%Z /\ (i = 1 -> nearest 3 i = 1)%Z /\ (2 <= i -> nearest 3 i = 2)%Z)
    by (intros; unfold nearest; lia).
  split; [|split; [|split; [|split]]].
  - cbn [stable_steps]. split; [lra|]. split; [|exact I]. intros i Hi.
    assert (P : forall a b, (0 <= a <= 2)%Z -> (0 <= b <= 2)%Z -> dt_at_most 1 1 (GodunovStableDt BurgersSignals 1 (fx_burgers a) (fx_burgers b))).
    { intros a b Ha Hb. unfold GodunovStableDt. rewrite burgers_speed. unfold divide_dt, dt_at_most.
      destruct (Req_EM_T _ 0); [trivial|].
      assert (HM : 0 <= bspeed (fx_burgers a) (fx_burgers b) <= 1).
      { rewrite <- burgers_speed at 1. split; [apply max_abs_ge0|].
        assert (B : forall c, -1 <= fx_burgers c <= 1) by (intros c; unfold fx_burgers; destruct (c =? 0)%Z; [lra|]; destruct (c =? 1)%Z; lra).
        pose proof (B a). pose proof (B b).
        unfold bspeed. destruct (Rlt_dec _ _); [apply Rabs_le; lra | apply Rmax_lub; apply Rabs_le; lra]. }
      set (M := bspeed _ _) in *. apply Rmult_le_reg_r with M; [lra|]. replace (1 * (1 / M) * M) with 1 by (field; lra). lra. }
    apply P; unfold nearest; lia.
  - unfold scalar_step, fv_update, face_fluxes, transmissive, fx_burgers. cbn.
    unfold GodunovFlux, BurgersRiemann, BurgersFlux.
    repeat match goal with |- context[Rlt_dec ?a ?b] => destruct (Rlt_dec a b); try (exfalso; lra) end; lra.
  - unfold scalar_step, fv_update, face_fluxes, transmissive, fx_burgers. cbn.
    unfold GodunovFlux, BurgersRiemann, BurgersFlux.
    repeat match goal with |- context[Rlt_dec ?a ?b] => destruct (Rlt_dec a b); try (exfalso; lra) end; lra.
  - unfold scalar_step, fv_update, face_fluxes, transmissive, fx_burgers. cbn.
    unfold GodunovFlux, BurgersRiemann, BurgersFlux.
    repeat match goal with |- context[Rlt_dec ?a ?b] => destruct (Rlt_dec a b); try (exfalso; lra) end; lra.
  - change (Rabs (fx_burgers 1 - fx_burgers 0) + (Rabs (fx_burgers 2 - fx_burgers 1) + 0) = 3).
    unfold fx_burgers. cbn [Z.eqb Pos.eqb]. rewrite (Rabs_right (1 - -1)), (Rabs_left (0 - 1)) by lra. lra.
Qed.

(** The stencils beyond the two faces of a cell matter: ghost cell 3, cells -1 and 0 allow dt = dx when only
    the faces of the first cell are considered, and the new value 7/2 exceeds all neighbours. *)
Example C28_outer_stencils_needed :
  let u := fun i => if (i =? -1)%Z then 3 else if (i =? 0)%Z then -1 else 0 in
  dt_at_most 1 1 (GodunovStableDt BurgersSignals 1 (u (-1)%Z) (u 0%Z)) /\
  dt_at_most 1 1 (GodunovStableDt BurgersSignals 1 (u 0%Z) (u 1%Z)) /\
  fv_update 1 1 (face_fluxes (GodunovFlux BurgersFlux BurgersRiemann) u) u 0 = 7 / 2.
Proof.
  cbv zeta. cbn [Z.eqb Pos.eqb]. unfold GodunovStableDt. rewrite !burgers_speed.
  assert (E1 : bspeed 3 (-1) = 1) by (unfold bspeed; destruct (Rlt_dec (-1) 3); [rewrite Rabs_right; lra | lra]).
  assert (E2 : bspeed (-1) 0 = 1).
  { unfold bspeed. destruct (Rlt_dec 0 (-1)); [lra|]. rewrite Rabs_R0, Rabs_left by lra. rewrite Rmax_left; lra. }
  rewrite E1, E2. unfold divide_dt. destruct (Req_EM_T 1 0); [lra|]. cbn [dt_at_most]. split; [lra|]. split; [lra|].
  unfold fv_update, face_fluxes. cbn. unfold GodunovFlux, BurgersRiemann, BurgersFlux.
  repeat match goal with |- context[Rlt_dec ?a ?b] => destruct (Rlt_dec a b); try (exfalso; lra) end; lra.
Qed.

(** ** C29 *)

Theorem C29_maximum_principle : forall v u dt dx i, 0 < dx -> 0 <= dt ->
  dt_at_most 1 dt (GodunovStableDt (AdvectionSignals v) dx (u (i - 1)%Z) (u i)) ->
  between (min3 (u (i - 1)%Z) (u i) (u (i + 1)%Z))
    (fv_update dt dx (face_fluxes (GodunovFlux (AdvectionFlux v) (AdvectionRiemann v)) u) u i)
    (max3 (u (i - 1)%Z) (u i) (u (i + 1)%Z)).
Proof. intros; apply advection_cell_max; auto. eapply advection_dt; eauto. Qed.
Print Assumptions C29_maximum_principle.

Theorem C29_bounds : forall v dx n dts u lo hi, 0 < dx -> (0 < n)%Z ->
  let method := GodunovFlux (AdvectionFlux v) (AdvectionRiemann v) in
  stable_steps (scalar_step method dx n) 1 (GodunovStableDt (AdvectionSignals v) dx) n dts u ->
  (forall i, (0 <= i < n)%Z -> between lo (u i) hi) ->
  forall i, (0 <= i < n)%Z -> between lo (scalar_steps method dx n dts u i) hi.
Proof.
  intros v dx n dts u lo hi Hx Hn method. apply (patch_bounds_steps _ (GodunovStableDt (AdvectionSignals v) dx)); auto.
  intros g dt i Ht H. apply advection_cell_max; auto. eapply advection_dt; eauto. apply (H i). lia.
Qed.
Print Assumptions C29_bounds.

Theorem C29_total_variation : forall v dx n dts u, 0 < dx -> (0 < n)%Z ->
  let method := GodunovFlux (AdvectionFlux v) (AdvectionRiemann v) in
  stable_steps (scalar_step method dx n) 1 (GodunovStableDt (AdvectionSignals v) dx) n dts u ->
  total_variation n (scalar_steps method dx n dts u) <= total_variation n u.
Proof.
  intros v dx n dts u Hx Hn method. apply (patch_tv_steps _ (GodunovStableDt (AdvectionSignals v) dx)); auto.
  intros g dt a m Ht H. apply advection_window; auto. eapply advection_dt; eauto. apply (H a). lia.
Qed.
Print Assumptions C29_total_variation.

(** At CFL one (dt |v| = dx, which is exactly the stable time step) every cell takes the value of its upwind
    neighbour, and k steps move the data of a patch by k cells (values from outside are those of the end
    cells). *)
Theorem C29_exact_shift : forall v dt dx, 0 < dx -> dt * Rabs v = dx ->
  (forall l r, GodunovStableDt (AdvectionSignals v) dx l r = Finite dt) /\
  (forall u i, fv_update dt dx (face_fluxes (GodunovFlux (AdvectionFlux v) (AdvectionRiemann v)) u) u i
               = if Rlt_dec 0 v then u (i - 1)%Z else u (i + 1)%Z) /\
  (forall n k u i, (0 <= i < n)%Z ->
     scalar_steps (GodunovFlux (AdvectionFlux v) (AdvectionRiemann v)) dx n (repeat dt k) u i
     = u (nearest n (if Rlt_dec 0 v then i - Z.of_nat k else i + Z.of_nat k)%Z)).
Proof.
  intros v dt dx Hx E. split; [|split].
  - intros l r. unfold GodunovStableDt, divide_dt, AdvectionSignals.
    replace (max_abs [v]) with (Rabs v) by (unfold max_abs; cbn; rewrite Rmax_right; [auto | apply Rabs_pos]).
    destruct (Req_EM_T (Rabs v) 0) as [e | e]; [rewrite e in E; lra|]. f_equal. rewrite <- E. field. auto.
  - intros; apply advection_shift; auto.
  - intros; apply advection_shift_steps; auto; lia.
Qed.
Print Assumptions C29_exact_shift.

(** Velocity -2, dx = 1, dt = 1/2: CFL one; cells take their right neighbours' values. *)
Example C29_example :
  1 / 2 * Rabs (-2) = 1 /\
  dt_at_most 1 (1 / 2) (GodunovStableDt (AdvectionSignals (-2)) 1 5 7) /\
  fv_update (1 / 2) 1 (face_fluxes (GodunovFlux (AdvectionFlux (-2)) (AdvectionRiemann (-2))) fx_burgers) fx_burgers 0 = 1.
Proof.
  assert (E : 1 / 2 * Rabs (-2) = 1) by (rewrite Rabs_left; lra).
  destruct (C29_exact_shift (-2) (1 / 2) 1 ltac:(lra) E) as (A & B & _).
  split; [exact E|]. split; [rewrite A; cbn; lra|]. rewrite B. destruct (Rlt_dec 0 (-2)); [lra|]. reflexivity.
Qed.
