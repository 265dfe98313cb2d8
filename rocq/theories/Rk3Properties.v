(** Properties C124 to C126: the third order Runge-Kutta method. *)
From Coq Require Import Reals ZArith Bool Arith Lia Lra Psatz.
From Verif Require Import Rk3Model Rk3Spec Rk3Proofs Rk3Proofs2.
Local Open Scope R_scope.

(** ** C124: the stages *)

(** Updating every cell with the fluxes, each computed from its own twelve cells, is the same as the three stages of Shu and
    Osher on the whole grid; [rhs] is the difference of the fluxes at the faces divided by the cell size, and no value is used
    before it has been computed. *)
Theorem C124_stages : forall g (u : Z -> cons) dt dx, dx <> 0 -> exists F : Z -> cons,
  (forall j, ComputeNumericFlux g (fun k => CompleteFromCons g (u (j - 6 + Z.of_nat k)%Z)) dt dx = Some (F j)) /\
  (forall i, add (u i) (scale (dt / dx) (sub (F i) (F (i + 1)%Z))) = third_stage _ gplus gtimes (rhs g dx) dt u i).
Proof. exact update_stages. Qed.
Print Assumptions C124_stages.

(** For linear equations u' = L u the three stages give the Taylor polynomial of third degree of the solution. *)
Theorem C124_linear : forall (I : Type) (L : (I -> R) -> I -> R), (forall u v, (forall i, u i = v i) -> forall i, L u i = L v i) ->
  (forall a b u v i, L (fun k => a * u k + b * v k) i = a * L u i + b * L v i) ->
  forall dt u i, third_stage _ (fplus I) (ftimes I) L dt u i = u i + dt * L u i + dt * dt / 2 * L (L u) i + dt * dt * dt / 6 * L (L (L u)) i.
Proof. intros I L E H dt u i. apply (stages_linear I L E H dt u i). Qed.
Print Assumptions C124_linear.

(** A uniform state: the flux is the one of the equation, whatever the viscosity and conductivity. *)
Theorem C124_uniform : forall g q dt dx, dx <> 0 -> ComputeNumericFlux g (fun _ => CompleteFromCons g q) dt dx = Some (Flux (CompleteFromCons g q)).
Proof.
  intros g q dt dx Hdx. change (fun _ : nat => CompleteFromCons g q) with (fun k : nat => CompleteFromCons g ((fun _ : Z => q) (0 - 6 + Z.of_nat k)%Z)). rewrite flux_stages by exact Hdx.
  assert (E0 : forall v, (forall k, v k = q) -> forall i, edge_flux g dx v i = Flux (CompleteFromCons g q)) by (intros v Hv i; unfold edge_flux; rewrite !Hv; apply edge_flux_uniform).
  assert (R0 : forall v, (forall k, v k = q) -> forall i, euler _ gplus gtimes (rhs g dx) dt v i = q).
  { intros v Hv i. unfold euler, gplus, gtimes, rhs. rewrite !(E0 v Hv), Hv. set (F := Flux _). clearbody F. apply cons_ext; cbn; ring. }
  rewrite (E0 (fun _ => q)) by reflexivity. rewrite (E0 (first_stage _ gplus gtimes (rhs g dx) dt (fun _ => q))) by (intros k; apply R0; reflexivity).
  rewrite (E0 (second_stage _ gplus gtimes (rhs g dx) dt (fun _ => q))).
  - f_equal. set (F := Flux _). clearbody F. apply cons_ext; cbn; field.
  - intros k. change (add (scale (3 / 4) q) (scale (1 / 4) (euler _ gplus gtimes (rhs g dx) dt (first_stage _ gplus gtimes (rhs g dx) dt (fun _ => q)) k)) = q).
    rewrite R0 by (intros m; apply R0; reflexivity). apply cons_ext; cbn; field.
Qed.
Print Assumptions C124_uniform.

Example C124_example :
  ComputeNumericFlux (mkGas 1 (7/5) (5/2) 1 1) (fun _ => CompleteFromCons (mkGas 1 (7/5) (5/2) 1 1) (mkCons 2 4 9)) 1 1 = Some (mkCons 4 10 22) /\
  third_stage _ (fplus unit) (ftimes unit) (fun u i => - u i) 1 (fun _ => 6) tt = 2.
Proof.
  split.
  - rewrite C124_uniform by lra. f_equal. apply cons_ext; cbn; field.
  - rewrite C124_linear; [field| |]; intros; rewrite ?H; ring.
Qed.

(** ** C125: the fluxes at the faces *)

(** Mirrored cells give the mirrored flux. *)
Theorem C125_mirror : forall g dt dx (s : nat -> cons) F, dx <> 0 -> ComputeNumericFlux g (fun k => CompleteFromCons g (s k)) dt dx = Some F ->
  ComputeNumericFlux g (fun k => CompleteFromCons g (mkCons (density (s (11 - k)%nat)) (- momentum (s (11 - k)%nat)) (energy (s (11 - k)%nat)))) dt dx =
    Some (mkCons (- density F) (momentum F) (- energy F)).
Proof. exact flux_mirror. Qed.
Print Assumptions C125_mirror.

(** The value at a face is exact for data on a straight line. *)
Theorem C125_straight : forall c0 c1 dx, CellToEdge_ (c0 + c1 * (- (3 / 2) * dx)) (c0 + c1 * (- (1 / 2) * dx)) (c0 + c1 * (1 / 2 * dx)) (c0 + c1 * (3 / 2 * dx)) = c0.
Proof. intros. unfold CellToEdge_, alpha_1, alpha_2. field. Qed.
Print Assumptions C125_straight.

(** Not for parabolas, neither through the midpoints nor for the means of the cells: the method is of second order in space. *)
Theorem C125_order_refuted : forall c0 c1 c2 dx, c2 <> 0 -> dx <> 0 ->
  let f x := c0 + c1 * x + c2 * (x * x) in
  let m x := f x + c2 * (dx * dx) / 12 in
  CellToEdge_ (f (- (3 / 2) * dx)) (f (- (1 / 2) * dx)) (f (1 / 2 * dx)) (f (3 / 2 * dx)) <> f 0 /\
  CellToEdge_ (m (- (3 / 2) * dx)) (m (- (1 / 2) * dx)) (m (1 / 2 * dx)) (m (3 / 2 * dx)) <> f 0.
Proof.
  intros c0 c1 c2 dx Hc Hd f m. assert (N : c2 * (dx * dx) <> 0) by (repeat apply Rmult_integral_contrapositive_currified; assumption).
  split; intros E; apply N; unfold m, f, CellToEdge_, alpha_1, alpha_2 in E; lra.
Qed.
Print Assumptions C125_order_refuted.

(** Positive densities in the cells do not give positive densities at the faces. *)
Theorem C125_positive_refuted : forall x, 0 < x -> exists y, 0 < y /\ CellToEdge_ y x x y < 0.
Proof. intros x H. exists (3 * x). split; [lra|]. unfold CellToEdge_, alpha_1, alpha_2. lra. Qed.
Print Assumptions C125_positive_refuted.

(** Friction and heat conduction: no mass is moved; momentum goes from fast to slow, and at equal velocities heat from warm to cold
    (what is subtracted from the flux has the sign of the difference). *)
Theorem C125_diffusion : forall g q0 q1 e dx, 0 < dx -> 0 <= eta_0 g -> 0 <= k_0 g ->
  density (ComputeDiffusion g q0 q1 e dx) = 0 /\
  0 <= momentum (ComputeDiffusion g q0 q1 e dx) * (Velocity q1 - Velocity q0) /\
  (Velocity q1 = Velocity q0 -> 0 <= energy (ComputeDiffusion g q0 q1 e dx) * (Temperature g q1 - Temperature g q0)) /\
  (Velocity q1 = Velocity q0 -> Temperature g q1 = Temperature g q0 -> ComputeDiffusion g q0 q1 e dx = mkCons 0 0 0).
Proof.
  intros g q0 q1 e dx Hd He Hk. unfold ComputeDiffusion. cbn [density momentum energy]. pose proof (sqrt_pos (Temperature g e)) as S. set (s := sqrt _) in *. set (u := Velocity e). set (du := Velocity q1 - Velocity q0). set (dT := Temperature g q1 - Temperature g q0).
  assert (I : 0 < / dx) by (apply Rinv_0_lt_compat; exact Hd). assert (SQ : forall x, 0 <= x * x) by (intros x; apply Rle_0_sqr).
  split; [reflexivity|]. split; [|split].
  - replace (4 / 3 * (eta_0 g * s) * (du / dx) * du) with (4 / 3 * (eta_0 g * s) * (/ dx) * (du * du)) by (unfold Rdiv; ring). apply Rmult_le_pos; [|apply SQ]. apply Rmult_le_pos; [|lra]. assert (0 <= eta_0 g * s) by (apply Rmult_le_pos; assumption). lra.
  - intros E. assert (du = 0) as Z by (unfold du; lra). rewrite Z. replace ((4 / 3 * (eta_0 g * s) * u * (0 / dx) + k_0 g * s * (dT / dx)) * dT) with (k_0 g * s * / dx * (dT * dT)) by (unfold Rdiv; ring). apply Rmult_le_pos; [|apply SQ]. apply Rmult_le_pos; [|lra]. apply Rmult_le_pos; assumption.
  - intros E1 E2. assert (du = 0) as Z1 by (unfold du; lra). assert (dT = 0) as Z2 by (unfold dT; lra). rewrite Z1, Z2. apply cons_ext; cbn; unfold Rdiv; ring.
Qed.
Print Assumptions C125_diffusion.

(** In the flux at the face: compared with the gas without friction and conduction, momentum is moved from the faster to the slower
    cell and, at equal velocities, energy from the warmer to the colder one. *)
Theorem C125_friction : forall Rs ga gi k eta a b c d dx, 0 < dx -> 0 <= eta -> 0 <= k ->
  let F k eta := EdgeFlux (mkGas Rs ga gi k eta) dx a b c d in
  let T q := pressure q / (density (co q) * Rs) in
  density (F k eta) = density (F 0 0) /\
  (Velocity b <= Velocity c -> momentum (F k eta) <= momentum (F 0 0)) /\ (Velocity c <= Velocity b -> momentum (F 0 0) <= momentum (F k eta)) /\
  (Velocity b = Velocity c -> T b <= T c -> energy (F k eta) <= energy (F 0 0)) /\ (Velocity b = Velocity c -> T c <= T b -> energy (F 0 0) <= energy (F k eta)).
Proof.
  intros Rs ga gi k eta a b c d dx Hd He Hk F T. unfold F, EdgeFlux, ComputeDiffusion. cbn [density momentum energy sub k_0 eta_0].
  change (Temperature (mkGas Rs ga gi k eta)) with T. change (Temperature (mkGas Rs ga gi 0 0)) with T. change (CompleteFromCons (mkGas Rs ga gi k eta)) with (CompleteFromCons (mkGas Rs ga gi 0 0)).
  set (e := CompleteFromCons _ _). pose proof (sqrt_pos (T e)) as S0. set (s := sqrt (T e)) in *. assert (I : 0 < / dx) by (apply Rinv_0_lt_compat; exact Hd).
  assert (A : 0 <= 4 / 3 * (eta * s) * / dx) by (repeat apply Rmult_le_pos; lra). assert (B : 0 <= k * s * / dx) by (repeat apply Rmult_le_pos; lra).
  assert (M : forall x y, 0 <= x -> 0 <= y -> 0 <= x * y) by (intros; apply Rmult_le_pos; assumption). clearbody e. set (fm := momentum (Flux e)). set (fe := energy (Flux e)). clearbody fm fe. set (ve := Velocity e). clearbody ve s.
  split; [lra|]. split; [|split; [|split]].
  - intros H. assert (0 <= Velocity c - Velocity b) as Q by lra. pose proof (M _ _ A Q). unfold Rdiv in *. lra.
  - intros H. assert (0 <= Velocity b - Velocity c) as Q by lra. pose proof (M _ _ A Q). unfold Rdiv in *. lra.
  - intros E H. assert (0 <= T c - T b) as Q by lra. pose proof (M _ _ B Q). replace (Velocity c - Velocity b) with 0 by lra. unfold Rdiv in *. lra.
  - intros E H. assert (0 <= T b - T c) as Q by lra. pose proof (M _ _ B Q). replace (Velocity c - Velocity b) with 0 by lra. unfold Rdiv in *. lra.
Qed.
Print Assumptions C125_friction.

Example C125_example :
  CellToEdge_ 4 1 1 4 < 0 /\ CellToEdge_ 1 2 3 4 = 5 / 2 /\
  momentum (ComputeDiffusion (mkGas 1 (7/5) (5/2) 1 1) (mkComplete (mkCons 1 0 1) 1 1) (mkComplete (mkCons 1 3 1) 1 1) (mkComplete (mkCons 1 1 1) 1 1) 2) = 2.
Proof.
  split; [unfold CellToEdge_, alpha_1, alpha_2; lra|]. split; [unfold CellToEdge_, alpha_1, alpha_2; lra|]. cbn. unfold Velocity, Temperature. cbn. replace (1 / (1 * 1)) with 1 by field. rewrite sqrt_1. field.
Qed.

(** ** C126: contact waves and the time step *)

(** Without friction and conduction, uniform velocity and pressure stay uniform exactly and the density is advected by the three
    stages for the linear equation, as long as the densities at the faces do not vanish. *)
Theorem C126_contact : forall g dx dt a p (rho : Z -> R), gamma_minus_1_inv g <> 0 -> eta_0 g = 0 -> k_0 g = 0 -> dx <> 0 ->
  let L := advected alpha_1 alpha_2 a dx in
  let edge (r : Z -> R) i := alpha_1 * (r (i - 1)%Z + r i) - alpha_2 * (r (i - 2)%Z + r (i + 1)%Z) in
  (forall i, edge rho i <> 0) -> (forall i, edge (first_stage _ (fplus Z) (ftimes Z) L dt rho) i <> 0) -> (forall i, edge (second_stage _ (fplus Z) (ftimes Z) L dt rho) i <> 0) ->
  let state r := mkCons r (r * a) (1 / 2 * r * (a * a) + p * gamma_minus_1_inv g) in
  exists F : Z -> cons,
    (forall j, ComputeNumericFlux g (fun k => CompleteFromCons g (state (rho (j - 6 + Z.of_nat k)%Z))) dt dx = Some (F j)) /\
    (forall i, add (state (rho i)) (scale (dt / dx) (sub (F i) (F (i + 1)%Z))) = state (third_stage _ (fplus Z) (ftimes Z) L dt rho i)).
Proof.
  intros g dx dt a p rho Hg He Hk Hdx L edge H0 H1 H2 state. destruct (update_stages g (fun k => contact g a p (rho k)) dt dx Hdx) as (F & A & B). exists F. split; [exact A|].
  intros i. change (state (rho i)) with (contact g a p (rho i)). rewrite B. rewrite (third_contact g dx dt a p Hg He Hk Hdx rho i H0 H1 H2). reflexivity.
Qed.
Print Assumptions C126_contact.

(** A wave of three cells on a constant density grows by 1 - 3/4 k^4 + 3/4 k^6 with k = (alpha_1 + 2 alpha_2) a dt / dx: it grows exactly
    if |k| > 1, that is for Courant numbers above 0.5766. *)
Theorem C126_growth : forall a dx dt c (r : Z -> R) i, dx <> 0 -> (forall i, r i + r (i + 1)%Z + r (i + 2)%Z = 0) -> 0 < squares r i ->
  let k := (alpha_1 + 2 * alpha_2) * a * dt / dx in
  let r' := fun j => third_stage _ (fplus Z) (ftimes Z) (advected alpha_1 alpha_2 a dx) dt (fun j => c + r j) j - c in
  squares r' i = (1 - 3 / 4 * k ^ 4 + 3 / 4 * k ^ 6) * squares r i /\ (squares r i < squares r' i <-> 1 < k * k).
Proof.
  intros a dx dt c r i Hdx H P k r'. assert (E : squares r' i = (1 - 3 / 4 * k ^ 4 + 3 / 4 * k ^ 6) * squares r i).
  { rewrite <- (growth r k i H). assert (X : forall j, r' j = (1 - 3 / 2 * (k * k)) * r j - k * (1 - k * k / 2) * (r (j + 1)%Z - r (j - 1)%Z)).
    { intros j. unfold r'. rewrite (third_three a dx dt c r j Hdx H). unfold k, beta. ring. }
    unfold squares. rewrite !X. reflexivity. }
  split; [exact E|]. rewrite E. set (w := squares r i) in *. clearbody w. set (t := k * k). assert (T : 0 <= t) by apply Rle_0_sqr.
  replace ((1 - 3 / 4 * k ^ 4 + 3 / 4 * k ^ 6) * w) with (w + 3 / 4 * (t * t * (t - 1)) * w) by (unfold t; ring). clearbody t. split; intros Q.
  - destruct (Rlt_dec 1 t) as [Y|Y]; [exact Y|]. exfalso. assert (0 <= t * t * (1 - t)) by (apply Rmult_le_pos; [apply Rmult_le_pos; lra|lra]). assert (0 <= 3 / 4 * (t * t * (1 - t)) * w) by (apply Rmult_le_pos; lra). lra.
  - assert (0 < t * t * (t - 1)) by (apply Rmult_lt_0_compat; [apply Rmult_lt_0_compat; lra|lra]). assert (0 < 3 / 4 * (t * t * (t - 1)) * w) by (apply Rmult_lt_0_compat; lra). lra.
Qed.
Print Assumptions C126_growth.

(** The returned time step is the one of the Courant number one for both cells at the face. *)
Theorem C126_courant : forall (u : nat -> complete) dx, 0 < dx -> 0 < speed_of_sound (u 5%nat) -> 0 < speed_of_sound (u 6%nat) ->
  0 < ComputeStableDt u dx /\ (Rabs (Velocity (u 5%nat)) + speed_of_sound (u 5%nat)) * ComputeStableDt u dx <= dx /\ (Rabs (Velocity (u 6%nat)) + speed_of_sound (u 6%nat)) * ComputeStableDt u dx <= dx.
Proof.
  intros u dx Hd H5 H6. unfold ComputeStableDt. fold (Velocity (u 5%nat)). fold (Velocity (u 6%nat)). pose proof (Rabs_pos (Velocity (u 5%nat))). pose proof (Rabs_pos (Velocity (u 6%nat))).
  set (x := Rabs (Velocity (u 5%nat)) + speed_of_sound (u 5%nat)) in *. set (y := Rabs (Velocity (u 6%nat)) + speed_of_sound (u 6%nat)) in *. pose proof (Rmax_l x y). pose proof (Rmax_r x y). set (z := Rmax x y) in *. assert (0 < z) by (unfold x in *; lra).
  assert (I : 0 < dx / z) by (apply Rdiv_lt_0_compat; assumption). assert (E : z * (dx / z) = dx) by (field; lra). split; [exact I|]. split; [apply Rle_trans with (z * (dx / z))|apply Rle_trans with (z * (dx / z))]; try lra; apply Rmult_le_compat_r; lra.
Qed.
Print Assumptions C126_courant.

(** The counterexample: densities 1.01, 0.99, 1, 1.01, ... *)
Definition wave (i : Z) : R := if Z.eqb (i mod 3) 0 then 1 / 100 else if Z.eqb (i mod 3) 1 then - (1 / 100) else 0.
Lemma wave_at q s : (0 <= s < 3)%Z -> wave (3 * q + s) = if Z.eqb s 0 then 1 / 100 else if Z.eqb s 1 then - (1 / 100) else 0.
Proof. intros H. unfold wave. replace ((3 * q + s) mod 3)%Z with s; [reflexivity|]. rewrite Z.add_comm, Z.mul_comm, Z_mod_plus_full. symmetry. apply Z.mod_small. exact H. Qed.
Lemma wave_three i : wave i + wave (i + 1) + wave (i + 2) = 0.
Proof.
  pose proof (Z.div_mod i 3 ltac:(lia)) as E. pose proof (Z.mod_pos_bound i 3 ltac:(lia)) as B. set (q := (i / 3)%Z) in *. set (s := (i mod 3)%Z) in *. clearbody q s. assert (s = 0 \/ s = 1 \/ s = 2)%Z as [-> | [-> | ->]] by lia; subst i.
  - rewrite <- !Z.add_assoc. cbn [Z.add]. rewrite !wave_at by lia. cbn. lra.
  - rewrite <- !Z.add_assoc. cbn [Z.add Pos.add Pos.succ]. replace (3 * q + 3)%Z with (3 * (q + 1) + 0)%Z by lia. rewrite !wave_at by lia. cbn. lra.
  - rewrite <- !Z.add_assoc. cbn [Z.add Pos.add Pos.succ]. replace (3 * q + 3)%Z with (3 * (q + 1) + 0)%Z by lia. replace (3 * q + 4)%Z with (3 * (q + 1) + 1)%Z by lia. rewrite !wave_at by lia. cbn. lra.
Qed.
Lemma wave_bound i : - (1 / 100) <= wave i <= 1 / 100.
Proof. unfold wave. destruct (Z.eqb _ _); [lra|]. destruct (Z.eqb _ _); lra. Qed.
Lemma edge_close r i : (forall k, - (1 / 10) <= r k - 1 <= 1 / 10) -> alpha_1 * (r (i - 1)%Z + r i) - alpha_2 * (r (i - 2)%Z + r (i + 1)%Z) <> 0.
Proof. intros H. pose proof (H (i - 1)%Z). pose proof (H i). pose proof (H (i - 2)%Z). pose proof (H (i + 1)%Z). unfold alpha_1, alpha_2. lra. Qed.

(** The returned step is not stable: a flow with uniform velocity and pressure, where every face allows a larger step, and the
    wave in the density grows by more than half in one step. *)
Theorem C126_stable_refuted : exists g a p (rho : Z -> R) dt dx, let state r := mkCons r (r * a) (1 / 2 * r * (a * a) + p * gamma_minus_1_inv g) in
  0 < dt /\ 0 < dx /\ 0 < p /\ 0 < a /\ (forall i, 99 / 100 <= rho i <= 101 / 100) /\
  (forall j, dt <= ComputeStableDt (fun k => CompleteFromCons g (state (rho (j - 6 + Z.of_nat k)%Z))) dx) /\
  exists (F : Z -> cons) (rho' : Z -> R),
    (forall j, ComputeNumericFlux g (fun k => CompleteFromCons g (state (rho (j - 6 + Z.of_nat k)%Z))) dt dx = Some (F j)) /\
    (forall i, add (state (rho i)) (scale (dt / dx) (sub (F i) (F (i + 1)%Z))) = state (rho' i)) /\
    (forall i, 3 / 2 * squares (fun k => rho k - 1) i < squares (fun k => rho' k - 1) i).
Proof.
  set (b := alpha_1 + 2 * alpha_2). assert (Hb : 1734 / 1000 < b < 1735 / 1000) by (unfold b, alpha_1, alpha_2; lra).
  exists (mkGas 1 (7/5) (5/2) 0 0), 1, (1 / 14), (fun i => 1 + wave i), (6 / 5 / b), 1. cbv zeta. cbn [gamma_minus_1_inv].
  assert (D0 : 0 < 6 / 5 / b) by (apply Rdiv_lt_0_compat; lra). assert (D1 : 6 / 5 / b < 7 / 10). { apply Rmult_lt_reg_r with b; [lra|]. unfold Rdiv at 1. rewrite Rmult_assoc, Rinv_l by lra. lra. }
  set (dt := 6 / 5 / b) in *. set (L := advected alpha_1 alpha_2 1 1).
  assert (K : b * 1 * dt / 1 = 6 / 5) by (unfold dt; field; lra).
  assert (Ls : forall j, L (fun k => 1 + wave k) j = - b * (wave (j + 1) - wave (j - 1))) by (intros j; unfold L; rewrite (advected_three 1 1 1 wave j wave_three); unfold b, beta; field).
  assert (T3 : three (fun j => - b * (wave (j + 1) - wave (j - 1)))).
  { intros j. pose proof (wave_three (j - 1)) as A. pose proof (wave_three (j + 1)) as B. replace (j - 1 + 1)%Z with j in A by lia. replace (j - 1 + 2)%Z with (j + 1)%Z in A by lia. replace (j + 1 - 1)%Z with j by lia. replace (j + 2 - 1)%Z with (j + 1)%Z by lia. replace (j + 1 + 1)%Z with (j + 2)%Z in * by lia. replace (j + 1 + 2)%Z with (j + 2 + 1)%Z in B by lia. nra. }
  assert (LL : forall j, L (L (fun k => 1 + wave k)) j = - 3 * (b * b) * wave j).
  { intros j. unfold L at 1. rewrite (advected_ext _ _ _ _ _ (fun j => 0 + - b * (wave (j + 1) - wave (j - 1))) j) by (intros k; rewrite Ls; ring). rewrite (advected_three 1 1 0 (fun j => - b * (wave (j + 1) - wave (j - 1))) j T3).
    replace (j + 1 - 1)%Z with j by lia. replace (j - 1 + 1)%Z with j by lia. replace (j + 1 + 1)%Z with (j - 1 + 3)%Z by lia. rewrite (three_period wave _ wave_three). replace (j - 1 - 1)%Z with (j - 2)%Z by lia. rewrite <- (three_period wave (j - 2)%Z wave_three). replace (j - 2 + 3)%Z with (j + 1)%Z by lia.
    pose proof (wave_three (j - 1)) as A. replace (j - 1 + 1)%Z with j in A by lia. replace (j - 1 + 2)%Z with (j + 1)%Z in A by lia. replace (wave (j - 1)) with (- wave j - wave (j + 1)) by lra. unfold beta. fold b. field. }
  assert (KK : b * dt = 6 / 5) by (unfold dt; field; lra).
  destruct (C126_contact (mkGas 1 (7/5) (5/2) 0 0) 1 dt 1 (1 / 14) (fun i => 1 + wave i)) as (F & FA & FB); try (cbn; lra); try reflexivity.
  - intros i. cbv beta. apply (edge_close (fun i => 1 + wave i)). intros k. pose proof (wave_bound k). lra.
  - intros i. cbv beta. apply edge_close. intros k. fold L. destruct (stages_linear Z L (fun u v E j => advected_ext _ _ _ _ u v j E) (fun x y u v j => advected_lin _ _ _ _ x y u v j) dt (fun j => 1 + wave j) k) as (E & _ & _). rewrite E, Ls.
    replace (1 + wave k + dt * (- b * (wave (k + 1) - wave (k - 1)))) with (1 + wave k - b * dt * (wave (k + 1) - wave (k - 1))) by ring. rewrite KK. pose proof (wave_bound k). pose proof (wave_bound (k + 1)). pose proof (wave_bound (k - 1)). lra.
  - intros i. cbv beta. apply edge_close. intros k. fold L. destruct (stages_linear Z L (fun u v E j => advected_ext _ _ _ _ u v j E) (fun x y u v j => advected_lin _ _ _ _ x y u v j) dt (fun j => 1 + wave j) k) as (_ & E & _). rewrite E, Ls, LL.
    replace (1 + wave k + dt / 2 * (- b * (wave (k + 1) - wave (k - 1))) + dt * dt / 4 * (- 3 * (b * b) * wave k)) with (1 + wave k - b * dt / 2 * (wave (k + 1) - wave (k - 1)) - 3 / 4 * ((b * dt) * (b * dt)) * wave k) by field. rewrite KK. pose proof (wave_bound k). pose proof (wave_bound (k + 1)). pose proof (wave_bound (k - 1)). lra.
  - split; [exact D0|]. split; [lra|]. split; [lra|]. split; [lra|]. split; [intros i; pose proof (wave_bound i); lra|]. split.
    + intros j. unfold ComputeStableDt. cbn [co CompleteFromCons momentum density energy speed_of_sound gamma gamma_minus_1_inv].
      assert (G : forall r, 99 / 100 <= r -> Rabs (r * 1 / r) + sqrt (7 / 5 * ((1 / 2 * r * (1 * 1) + 1 / 14 * (5 / 2) - 1 / 2 * (r * 1 * (r * 1)) / r) / (5 / 2)) / r) <= 7 / 5).
      { intros r Hr. replace (r * 1 / r) with 1 by (field; lra). rewrite Rabs_R1. assert (sqrt (7 / 5 * ((1 / 2 * r * (1 * 1) + 1 / 14 * (5 / 2) - 1 / 2 * (r * 1 * (r * 1)) / r) / (5 / 2)) / r) <= 2 / 5); [|lra].
        replace (2 / 5) with (sqrt (4 / 25)) by (replace (4 / 25) with ((2 / 5) * (2 / 5)) by field; apply sqrt_square; lra). apply sqrt_le_1_alt. replace (7 / 5 * ((1 / 2 * r * (1 * 1) + 1 / 14 * (5 / 2) - 1 / 2 * (r * 1 * (r * 1)) / r) / (5 / 2)) / r) with (1 / 10 / r) by (field; lra).
        apply Rmult_le_reg_r with r; [lra|]. unfold Rdiv at 1. rewrite Rmult_assoc, Rinv_l by lra. lra. }
      set (r5 := 1 + wave (j - 6 + Z.of_nat 5)). set (r6 := 1 + wave (j - 6 + Z.of_nat 6)). assert (B5 : 99 / 100 <= r5) by (unfold r5; pose proof (wave_bound (j - 6 + Z.of_nat 5)); lra). assert (B6 : 99 / 100 <= r6) by (unfold r6; pose proof (wave_bound (j - 6 + Z.of_nat 6)); lra).
      pose proof (G r5 B5) as G5. pose proof (G r6 B6) as G6. pose proof (Rmax_lub _ _ _ G5 G6) as M. set (m := Rmax _ _) in *. assert (P : 1 <= m).
      { unfold m. apply Rle_trans with (2 := Rmax_l _ _). replace (r5 * 1 / r5) with 1 by (field; lra). rewrite Rabs_R1. pose proof (sqrt_pos (7 / 5 * ((1 / 2 * r5 * (1 * 1) + 1 / 14 * (5 / 2) - 1 / 2 * (r5 * 1 * (r5 * 1)) / r5) / (5 / 2)) / r5)). lra. }
      clearbody m. apply Rmult_le_reg_r with m; [lra|]. unfold Rdiv at 1. rewrite Rmult_assoc, Rinv_l by lra. nra.
    + exists F, (third_stage _ (fplus Z) (ftimes Z) L dt (fun i => 1 + wave i)). split; [exact FA|]. split; [exact FB|]. intros i.
      assert (P : 0 < squares wave i).
      { unfold squares. pose proof (Rle_0_sqr (wave i)) as Q0. pose proof (Rle_0_sqr (wave (i + 1))) as Q1. pose proof (Rle_0_sqr (wave (i + 2))) as Q2. unfold Rsqr in *.
        assert (wave i <> 0 \/ wave (i + 1) <> 0) as [N|N].
        { unfold wave at 1. pose proof (Z.mod_pos_bound i 3 ltac:(lia)) as B. destruct (Z.eqb_spec (i mod 3) 0); [left; lra|]. destruct (Z.eqb_spec (i mod 3) 1); [left; lra|]. right. unfold wave. rewrite Z.add_mod by lia. replace (i mod 3)%Z with 2%Z by lia. cbn. lra. }
        - pose proof (Rsqr_pos_lt _ N) as Q. unfold Rsqr in Q. lra.
        - pose proof (Rsqr_pos_lt _ N) as Q. unfold Rsqr in Q. lra. }
      destruct (C126_growth 1 1 dt 1 wave i ltac:(lra) wave_three P) as [E _]. fold b L in E. rewrite K in E. rewrite E.
      replace (squares (fun k => 1 + wave k - 1) i) with (squares wave i) by (unfold squares; ring). apply Rmult_lt_compat_r; [exact P|]. lra.
Qed.
Print Assumptions C126_stable_refuted.

Example C126_example :
  let u := fun _ : nat => mkComplete (mkCons 2 6 20) 1 1 in ComputeStableDt u 8 = 2 /\
  0 < squares wave 0 /\ wave 0 + wave 1 + wave 2 = 0.
Proof.
  cbv zeta. split; [|split].
  - unfold ComputeStableDt. cbn. replace (6 / 2) with 3 by lra. rewrite Rabs_pos_eq by lra. rewrite Rmax_left by lra. lra.
  - unfold squares, wave. cbn. lra.
  - unfold wave. cbn. lra.
Qed.
