(** Properties C127 to C129: the MUSCL-Hancock methods in primitive and in characteristic variables. *)
From Coq Require Import List Reals Lra Lia Bool Arith Psatz.
From Verif Require Import GasModel GasSpec HllemModel HllemSpec HllemProofs LimiterModel PrimMusclModel PrimMusclSpec PrimMusclProofs PrimMusclProofs2.
Import ListNotations.
Local Open Scope R_scope.

(** ** C127: the limiter *)

(** Slopes on rising data: the harmonic mean of the smaller difference and the central difference; zero at extrema. *)
Theorem C127_value : forall qL qM qR,
  (qL < qM -> qM < qR -> 1 / 1000000000000 < (qR - qL) / 2 -> limiter qL qM qR = harmonic (Rmin (qM - qL) (qR - qM)) ((qR - qL) / 2)) /\
  ((qM - qL) * (qR - qM) <= 0 -> limiter qL qM qR = 0) /\
  (qL <= qM <= qR -> 0 <= limiter qL qM qR <= (qR - qL) / 2).
Proof.
  intros qL qM qR. split; [|split].
  - intros A B C. rewrite limiter_up by (unfold eps; lra). replace (1 / 2 * (qR - qL)) with ((qR - qL) / 2) by field. reflexivity.
  - apply limiter_extremum.
  - intros [A B]. destruct (limiter_bounds qL qM qR A B) as (C & _ & _). lra.
Qed.
Print Assumptions C127_value.

(** Both values at the faces of the cell lie between the cell and the neighbour at that face. *)
Theorem C127_faces : forall qL qM qR, let s := limiter qL qM qR in
  Rmin qM qR <= qM + s / 2 <= Rmax qM qR /\ Rmin qL qM <= qM - s / 2 <= Rmax qL qM.
Proof. intros qL qM qR s. pose proof (limiter_edge_right qL qM qR). pose proof (limiter_edge_left qL qM qR). fold s in H, H0. lra. Qed.
Print Assumptions C127_faces.

(** Straight lines keep their slope, unless it is at most 1e-12; mirrored and negated data have negated slopes. *)
Theorem C127_straight : forall q e, 1 / 1000000000000 < Rabs e -> limiter (q - e) q (q + e) = e.
Proof. exact limiter_straight. Qed.
Print Assumptions C127_straight.
Theorem C127_mirror : forall qL qM qR, limiter qR qM qL = - limiter qL qM qR /\ limiter (- qL) (- qM) (- qR) = - limiter qL qM qR.
Proof. intros. split; [apply limiter_swap|apply limiter_neg]. Qed.
Print Assumptions C127_mirror.

(** The slope depends on the unit: differences up to 1e-12 count as none. *)
Theorem C127_scale_refuted : (forall qL qM qR, Rabs (qR - qL) <= 2 / 1000000000000 -> limiter qL qM qR = 0) /\
  exists c qL qM qR, 0 < c /\ limiter (c * qL) (c * qM) (c * qR) <> c * limiter qL qM qR.
Proof.
  split.
  - intros qL qM qR H. apply limiter_small. unfold eps. rewrite Rabs_mult, (Rabs_pos_eq (1 / 2)) by lra. lra.
  - exists (1 / 1000000000000), 0, 1, 2. split; [lra|]. rewrite limiter_small by (unfold eps; rewrite Rabs_pos_eq; lra). replace 0 with (1 - 1) at 2 by ring. replace 2 with (1 + 1) at 4 by ring. rewrite limiter_straight by (unfold eps; rewrite Rabs_pos_eq; lra). lra.
Qed.
Print Assumptions C127_scale_refuted.

Example C127_example : limiter 0 1 3 = 6 / 5 /\ limiter 0 3 1 = 0 /\ limiter 1 2 3 = 1.
Proof.
  split; [|split].
  - destruct (C127_value 0 1 3) as (H & _ & _). rewrite H by lra. rewrite Rmin_left by lra. unfold harmonic. lra.
  - apply limiter_extremum. lra.
  - replace 1 with (2 - 1) at 1 by ring. replace 3 with (2 + 1) by ring. apply C127_straight. rewrite Rabs_R1. lra.
Qed.

(** ** C128: the method in primitive variables *)

(** The states handed to the Riemann solver are the states at the face at half the time step, up to first order, of the Euler
    equations with the limited slopes. *)
Theorem C128_half_step : forall n d m a slopes dt dx, dx <> 0 -> rho m <> 0 ->
  same n (rec_left (dt / dx) d m a slopes) (taylor d m a (per_length dx slopes) (dx / 2) (dt / 2)) /\
  same n (rec_right (dt / dx) d m a slopes) (taylor d m a (per_length dx slopes) (- (dx / 2)) (dt / 2)).
Proof. intros n d m a slopes dt dx H1 H2. split; [apply left_taylor|apply right_taylor]; auto. Qed.
Print Assumptions C128_half_step.

(** Uniform flow: the flux of the Euler equations. *)
Theorem C128_uniform : forall n g dt dx d q, (1 <= n <= 3)%nat -> (d < n)%nat -> 1 < gamma g -> gamma_minus_1_inv g = 1 / (gamma g - 1) -> 0 < density q -> 0 < pressure q ->
  PrimFlux n g dt dx d q q q q = euler_flux 1 (state n g (prim_of q)) d.
Proof. intros. apply prim_uniform; auto. split; assumption. Qed.
Print Assumptions C128_uniform.

(** Contact and shear waves at rest, whatever the profile of the density and the other velocities: only the pressure acts. *)
Theorem C128_contact : forall n g dt dx d p s0 s1 s2 s3, (1 <= n <= 3)%nat -> (d < n)%nat -> 1 < gamma g -> gamma_minus_1_inv g = 1 / (gamma g - 1) -> 0 < p ->
  (forall s, In s [s0; s1; s2; s3] -> 0 < density s /\ pressure s = p /\ momentum s d = 0) -> PrimFlux n g dt dx d s0 s1 s2 s3 = pressure_flux n d p 0.
Proof. intros. apply prim_contact; auto. split; assumption. Qed.
Print Assumptions C128_contact.

(** Density on a straight line carried along by uniform velocity and pressure: the flux is the exact one at half the time step. *)
Theorem C128_carried : forall n g dt dx d (u : nat -> R) p r e s0 s1 s2 s3, (1 <= n <= 3)%nat -> (d < n)%nat -> 1 < gamma g -> gamma_minus_1_inv g = 1 / (gamma g - 1) ->
  0 < p -> dx <> 0 -> 1 / 1000000000000 < Rabs e ->
  (forall j s, In (j, s) [(-1, s0); (0, s1); (1, s2); (2, s3)] -> 0 < density s /\ density s = r + j * e /\ pressure s = p /\ forall i, (i < n)%nat -> momentum s i = density s * u i) ->
  let face := r + e / 2 - u d * dt / 2 * (e / dx) in 0 < face ->
  PrimFlux n g dt dx d s0 s1 s2 s3 = euler_flux 1 (state n g (mkPrim face u p)) d.
Proof. intros. apply prim_advected; auto. split; assumption. Qed.
Print Assumptions C128_carried.

(** Mirrored flow gives mirrored states on the other side of the face. *)
Theorem C128_mirror : forall n lambda d a l m r, rho m <> 0 ->
  same n (rec_left lambda d (turn d m) a (limited (turn d r) (turn d m) (turn d l))) (turn d (rec_right lambda d m a (limited l m r))).
Proof. exact rec_mirror. Qed.
Print Assumptions C128_mirror.

(** Cut cells: cells without volume count as copies of their neighbour; what they hold does not matter. *)
Theorem C128_cut_cells : forall n g dt dx d face v0 v3 others old s0 s1 s2 s3, 0 < face ->
  PrimFluxMasked n g dt dx d face v0 v3 others old s0 s1 s2 s3 = PrimFlux n g dt dx d (if Rlt_dec 0 v0 then s0 else s1) s1 s2 (if Rlt_dec 0 v3 then s3 else s2).
Proof. exact masked_open. Qed.
Print Assumptions C128_cut_cells.

(** Closed faces: the flux is zero only if another face of the same pack is open, otherwise it keeps its former value. *)
Theorem C128_closed_refuted : forall n g dt dx d face v0 v3 others old s0 s1 s2 s3, face <= 0 ->
  PrimFluxMasked n g dt dx d face v0 v3 others old s0 s1 s2 s3 = if others then mkF 0 (repeat 0 n) 0 [] else old.
Proof. intros. unfold PrimFluxMasked, positive. destruct (Rlt_dec 0 face) as [N|_]; [lra|]. destruct others; reflexivity. Qed.
Print Assumptions C128_closed_refuted.

Definition falling (i : nat) : cell :=
  let at_ r u := mkCell r (fun _ => r * u) (1 / 14000) (sqrt (7 / 5 * (1 / 14000) / r)) in
  match i with O => at_ 10 (-1) | 1%nat => at_ 1 0 | 2%nat => at_ (1 / 10) 1 | _ => at_ (1 / 10) 1 end.
Lemma falling_value : limiter 10 1 (1 / 10) = - (99 / 65).
Proof. pose proof (limiter_neg 10 1 (1 / 10)) as H. rewrite limiter_up in H by (unfold eps; lra). rewrite Rmin_right in H by lra. rewrite <- (Ropp_involutive (limiter 10 1 (1 / 10))), <- H. f_equal. unfold harmonic. field. Qed.

(** The density handed to the Riemann solver may be negative although all cells have positive density and pressure and no wave crosses
    more than one cell in the time step. *)
Theorem C128_positive_refuted : exists (s : nat -> cell) dt dx, 0 < dt /\ 0 < dx /\
  (forall i, 0 < density (s i) /\ 0 < pressure (s i) /\ 0 < speed_of_sound (s i) /\ density (s i) * (speed_of_sound (s i) * speed_of_sound (s i)) = 7 / 5 * pressure (s i) /\ (Rabs (momentum (s i) 0 / density (s i)) + speed_of_sound (s i)) * dt <= dx) /\
  rho (rec_left (dt / dx) 0 (prim_of (s 1%nat)) (speed_of_sound (s 1%nat)) (limited (prim_of (s 0%nat)) (prim_of (s 1%nat)) (prim_of (s 2%nat)))) < 0.
Proof.
  exists falling, (9 / 10), 1. split; [lra|]. split; [lra|]. split.
  - assert (S0 : forall r, 1 / 10 <= r -> 0 < sqrt (7 / 5 * (1 / 14000) / r) /\ r * (sqrt (7 / 5 * (1 / 14000) / r) * sqrt (7 / 5 * (1 / 14000) / r)) = 7 / 5 * (1 / 14000) /\ sqrt (7 / 5 * (1 / 14000) / r) <= 1 / 10).
    { intros r Hr. assert (P : 0 < 7 / 5 * (1 / 14000) / r) by (apply Rdiv_lt_0_compat; lra). split; [apply sqrt_lt_R0; exact P|]. split; [rewrite sqrt_sqrt by lra; field; lra|].
      replace (1 / 10) with (sqrt (1 / 100)) by (replace (1 / 100) with ((1 / 10) * (1 / 10)) by field; apply sqrt_square; lra). apply sqrt_le_1_alt. apply Rmult_le_reg_r with r; [lra|]. unfold Rdiv at 1. rewrite Rmult_assoc, Rinv_l by lra. lra. }
    assert (A : forall r u, 1 / 10 <= r -> -1 <= u <= 1 -> 0 < r /\ 0 < 1 / 14000 /\ 0 < sqrt (7 / 5 * (1 / 14000) / r) /\ r * (sqrt (7 / 5 * (1 / 14000) / r) * sqrt (7 / 5 * (1 / 14000) / r)) = 7 / 5 * (1 / 14000) /\ (Rabs (r * u / r) + sqrt (7 / 5 * (1 / 14000) / r)) * (9 / 10) <= 1).
    { intros r u Hr Hu. destruct (S0 r Hr) as (Q1 & Q2 & Q3). replace (r * u / r) with u by (field; lra). assert (Rabs u <= 1) by (apply Rabs_le; lra). repeat split; try assumption; lra. }
    intros i. destruct i as [|[|[|i]]]; cbn [falling density pressure speed_of_sound momentum]; apply A; lra.
  - unfold rec_left, limited, prim_of. cbn [falling density pressure speed_of_sound momentum rho vel pre]. rewrite falling_value. replace (10 * -1 / 10) with (0 - 1) by field. replace (1 * 0 / 1) with 0 by field. replace (1 / 10 * 1 / (1 / 10)) with (0 + 1) by field. rewrite limiter_straight by (unfold eps; rewrite Rabs_R1; lra). lra.
Qed.
Print Assumptions C128_positive_refuted.

Definition at_rest (r v : R) : cell := mkCell r (fun i => if Nat.eqb i 0 then 0 else r * v) 1 1.
Example C128_example : let g := mkGas (7 / 5) (5 / 2) in
  PrimFlux 2 g 1 1 0 (at_rest 1 5) (at_rest 3 (-1)) (at_rest 4 2) (at_rest 2 2) = mkF 0 [1; 0] 0 [] /\
  PrimFlux 1 g (1 / 2) 1 0 (mkCell 1 (fun _ => 1) 1 1) (mkCell 2 (fun _ => 2) 1 1) (mkCell 3 (fun _ => 3) 1 1) (mkCell 4 (fun _ => 4) 1 1) = mkF (9 / 4) [13 / 4] (37 / 8) [].
Proof.
  cbv zeta. split.
  - rewrite (C128_contact _ _ _ _ _ 1); try lia; try (cbn; lra); [reflexivity|]. intros s H. cbn in H. destruct H as [<- | [<- | [<- | [<- | []]]]]; cbn; repeat split; lra.
  - rewrite (C128_carried _ _ _ _ _ (fun _ => 1) 1 2 1); try lia; try (cbn; lra); [|rewrite Rabs_R1; lra|].
    + assert (K : forall a b c a' b' c', a = a' -> b = b' -> c = c' -> mkF a [b] c [] = mkF a' [b'] c' []) by congruence. unfold euler_flux, state. cbn. apply K; field.
    + intros j s H. cbn in H. destruct H as [H | [H | [H | [H | []]]]]; inversion H; subst; cbn; repeat split; intros; lra.
Qed.

(** ** C129: the method in characteristic variables *)

(** The amplitudes describe the jump completely. *)
Theorem C129_inverse : forall n d l r rhoc ooc2, (n <= 3)%nat -> (d < n)%nat -> rhoc <> 0 -> let '(ix, iy, iz) := MakeIndices d in
  same n (Recombine (ComputeAmplitudes l r rhoc ooc2 ix iy iz) rhoc ooc2 d) (mkPrim (rho r - rho l) (fun i => vel r i - vel l i) (pre r - pre l)).
Proof. intros n d l r rhoc ooc2. apply recombine_inverse. Qed.
Print Assumptions C129_inverse.

(** Moving every wave with its own speed is the half step of the Euler equations. *)
Theorem C129_half_step : forall n d slope (right : bool) q dt dx, (n <= 3)%nat -> (d < n)%nat -> dx <> 0 -> density q <> 0 -> speed_of_sound q <> 0 ->
  let c := speed_of_sound q in
  same n (Reconstruct n slope right q (dt / dx) d)
    (taylor d (prim_of q) c (per_length dx (Recombine slope (density q * c) (1 / (c * c)) d)) (if right then - (dx / 2) else dx / 2) (dt / 2)).
Proof. intros n d slope right q dt dx N D H H1 H2 c. apply char_taylor; auto. Qed.
Print Assumptions C129_half_step.

(** Data on straight lines: the exact slopes are used, for every limiter which keeps equal differences. *)
Theorem C129_straight : forall n d lim (right : bool) l q r (g : prim) dt dx, (n <= 3)%nat -> (d < n)%nat -> dx <> 0 -> density q <> 0 -> speed_of_sound q <> 0 -> (forall x, lim x x = x) ->
  same n (prim_of l) (mkPrim (density q - dx * rho g) (fun i => vel (prim_of q) i - dx * vel g i) (pressure q - dx * pre g)) ->
  same n (prim_of r) (mkPrim (density q + dx * rho g) (fun i => vel (prim_of q) i + dx * vel g i) (pressure q + dx * pre g)) ->
  same n (Reconstruct n (SlopesOf n lim l q r d) right q (dt / dx) d) (taylor d (prim_of q) (speed_of_sound q) g (if right then - (dx / 2) else dx / 2) (dt / 2)).
Proof.
  intros n d lim right l q r g dt dx N D Hx Hr Hc L (L1 & L2 & L3) (R1 & R2 & R3). set (c := speed_of_sound q) in *. set (rc := density q * c). set (oo := 1 / (c * c)).
  assert (RC : rc <> 0) by (unfold rc; apply Rmult_integral_contrapositive_currified; assumption). cbn [rho pre vel] in *.
  set (h := mkPrim (dx * rho g) (fun i => dx * vel g i) (dx * pre g)). set (z := mkPrim 0 (fun _ => 0) 0).
  set (gn := mkPrim (rho h) (fun i => if Nat.ltb i n then vel h i else 0) (pre h)).
  destruct (MakeIndices d) as [[ix iy] iz] eqn:I.
  assert (E : SlopesOf n lim l q r d = ComputeAmplitudes z gn rc oo ix iy iz).
  { unfold SlopesOf. fold c. fold rc oo. unfold ComputeSlopes. rewrite I. assert (V : forall i, vel (Primitives n q) i - vel (Primitives n l) i = vel gn i - 0 /\ vel (Primitives n r) i - vel (Primitives n q) i = vel gn i - 0).
    { intros i. unfold Primitives, gn, h. cbn [vel]. destruct (Nat.ltb_spec i n) as [K|K]; [|split; ring]. specialize (L3 i K). specialize (R3 i K). unfold prim_of in L3, R3. cbn [vel] in L3, R3. rewrite L3, R3. split; ring. }
    assert (P : pressure q - pressure l = pre gn - 0 /\ pressure r - pressure q = pre gn - 0) by (unfold prim_of in L2, R2; cbn [pre] in L2, R2; unfold gn, h; cbn [pre]; rewrite L2, R2; split; ring).
    assert (Q : density q - density l = rho gn - 0 /\ density r - density q = rho gn - 0) by (unfold prim_of in L1, R1; cbn [rho] in L1, R1; unfold gn, h; cbn [rho]; rewrite L1, R1; split; ring).
    unfold limit, ComputeAmplitudes. cbn [minus zero plus cv cw]. destruct (V ix) as [-> ->]. destruct (V iy) as [-> ->]. destruct (V iz) as [-> ->].
    change (pre (Primitives n q)) with (pressure q). change (pre (Primitives n l)) with (pressure l). change (pre (Primitives n r)) with (pressure r). change (rho (Primitives n q)) with (density q). change (rho (Primitives n l)) with (density l). change (rho (Primitives n r)) with (density r).
    destruct P as [-> ->]. destruct Q as [-> ->]. rewrite !L. reflexivity. }
  pose proof (recombine_inverse z gn rc oo d n N D RC) as K. rewrite I in K. rewrite <- E in K. destruct K as (K1 & K2 & K3).
  destruct (char_taylor n (SlopesOf n lim l q r d) right q (dt / dx) d dt dx N D Hx Hr Hc eq_refl) as (T1 & T2 & T3). fold c rc oo in T1, T2, T3.
  set (rec := Recombine (SlopesOf n lim l q r d) rc oo d) in *. set (x := if right then _ else _) in *. clearbody rec x.
  assert (G1 : rho (per_length dx rec) = rho g) by (unfold per_length; cbn [rho]; rewrite K1; unfold gn, h, z; cbn [rho]; field; exact Hx).
  assert (G2 : pre (per_length dx rec) = pre g) by (unfold per_length; cbn [pre]; rewrite K2; unfold gn, h, z; cbn [pre]; field; exact Hx).
  assert (G3 : forall i, (i < n)%nat -> vel (per_length dx rec) i = vel g i).
  { intros i Hi. unfold per_length. cbn [vel]. rewrite K3 by exact Hi. unfold gn, h, z. cbn [vel]. destruct (Nat.ltb_spec i n); [|lia]. field. exact Hx. }
  unfold same. rewrite T1, T2. unfold taylor, rate. cbn [rho vel pre]. rewrite G1, G2, (G3 d D). split; [reflexivity|]. split; [reflexivity|]. intros i Hi. rewrite T3 by exact Hi. unfold taylor, rate. cbn [rho vel pre]. rewrite G2, (G3 i Hi). reflexivity.
Qed.
Print Assumptions C129_straight.

(** Uniform flow, and contact and shear waves at rest with the default limiter. *)
Theorem C129_uniform : forall n g dt dx d lim q, (1 <= n <= 3)%nat -> (d < n)%nat -> 1 < gamma g -> gamma_minus_1_inv g = 1 / (gamma g - 1) -> 0 < density q -> 0 < pressure q -> 0 < speed_of_sound q -> lim 0 0 = 0 ->
  CharFlux n lim g dt dx d q q q q = euler_flux 1 (state n g (prim_of q)) d.
Proof. intros. apply char_uniform; auto. split; assumption. Qed.
Print Assumptions C129_uniform.
Theorem C129_contact : forall n g dt dx d p s0 s1 s2 s3, (1 <= n <= 3)%nat -> (d < n)%nat -> 1 < gamma g -> gamma_minus_1_inv g = 1 / (gamma g - 1) -> 0 < p ->
  (forall s, In s [s0; s1; s2; s3] -> 0 < density s /\ pressure s = p /\ momentum s d = 0 /\ 0 < speed_of_sound s) -> CharFlux n VanLeer g dt dx d s0 s1 s2 s3 = pressure_flux n d p 0.
Proof. intros. apply char_contact; auto. split; assumption. Qed.
Print Assumptions C129_contact.

(** Cut cells: with the default limiter the slopes vanish when one of the three cells has no volume, whatever the cells hold, and the
    state of the cell itself is used; with volumes in all cells nothing changes. *)
Theorem C129_cut_cells : forall n v0 v1 v2 l m r (right : bool) lambda d, (n <= 3)%nat -> (d < n)%nat -> density m <> 0 -> speed_of_sound m <> 0 ->
  (~ (0 < v0 /\ 0 < v1 /\ 0 < v2) -> same n (Reconstruct n (SlopesOfMasked n VanLeer v0 v1 v2 l m r d) right m lambda d) (prim_of m)) /\
  (0 < v0 -> 0 < v1 -> 0 < v2 -> SlopesOfMasked n VanLeer v0 v1 v2 l m r d = SlopesOf n VanLeer l m r d).
Proof.
  intros n v0 v1 v2 l m r right lambda d N D H1 H2. split; intros.
  - rewrite slopes_masked by (auto using vanleer_zero). apply char_flat; assumption.
  - apply slopes_open; assumption.
Qed.
Print Assumptions C129_cut_cells.

(** For other limiters this fails, since only the left differences are masked: with the mean of both differences, what a cell without
    volume on the right holds enters the density at the face. *)
Theorem C129_cut_cells_refuted : forall v0 v1 l m lambda y, 0 < v0 -> 0 < v1 -> density m <> 0 -> 0 < speed_of_sound m ->
  let q r := mkCell r (fun i => r * (momentum m i / density m)) (pressure m) 1 in
  forall r, r <> 0 -> momentum m 0%nat = 0 ->
  rho (Reconstruct 1 (SlopesOfMasked 1 NoLimiter v0 v1 0 l m (q r) 0) y m lambda 0) = density m + (if y then -1 else 1) * ((r - density m) / 4).
Proof.
  intros v0 v1 l m lambda y V0 V1 H1 H2 q r Hr Hm. unfold SlopesOfMasked, positive. destruct (Rlt_dec 0 0) as [K|_]; [lra|]. rewrite andb_false_r. unfold ComputeSlopesMasked, Reconstruct, Recombine, DoTimeStep, mask_chars, select, limit, ComputeAmplitudes, Primitives, MakeIndices, NoLimiter, q. cbn. rewrite Hm.
  set (c := speed_of_sound m) in *. clearbody c. set (D := density m) in *. clearbody D. set (p := pressure m). clearbody p. destruct y; field; repeat split; lra.
Qed.
Print Assumptions C129_cut_cells_refuted.

(** The flux at a face between cut cells: open faces use the state of a cell itself next to a cell without volume and otherwise the
    reconstructed one, closed faces carry nothing. *)
Theorem C129_cut_flux : forall n g dt dx d face v0 v1 v2 v3 s0 s1 s2 s3, (n <= 3)%nat -> (d < n)%nat -> 0 < v1 -> 0 < v2 ->
  density s1 <> 0 -> speed_of_sound s1 <> 0 -> density s2 <> 0 -> speed_of_sound s2 <> 0 ->
  (face <= 0 -> CharFluxMasked n VanLeer g dt dx d face v0 v1 v2 v3 s0 s1 s2 s3 = mkF 0 (repeat 0 n) 0 []) /\
  (0 < face -> 0 < v0 -> 0 < v3 -> CharFluxMasked n VanLeer g dt dx d face v0 v1 v2 v3 s0 s1 s2 s3 = CharFlux n VanLeer g dt dx d s0 s1 s2 s3) /\
  (0 < face -> v0 <= 0 -> v3 <= 0 -> CharFluxMasked n VanLeer g dt dx d face v0 v1 v2 v3 s0 s1 s2 s3 = HllemFlux_lane true n 1 (state n g (prim_of s1)) (state n g (prim_of s2)) d).
Proof.
  intros n g dt dx d face v0 v1 v2 v3 s0 s1 s2 s3 N D V1 V2 R1 C1 R2 C2. unfold CharFluxMasked, positive. split; [|split]; intros F.
  - destruct (Rlt_dec 0 face) as [K|_]; [lra|reflexivity].
  - intros V0 V3. destruct (Rlt_dec 0 face) as [_|K]; [|lra]. rewrite !slopes_open by assumption. reflexivity.
  - intros V0 V3. destruct (Rlt_dec 0 face) as [_|K]; [|lra]. rewrite !slopes_masked by first [exact vanleer_zero | intros (? & ? & ?); lra]. rewrite (complete_same n g _ _ (char_flat n false s1 _ d N D R1 C1)), (complete_same n g _ _ (char_flat n true s2 _ d N D R2 C2)). rewrite !complete_state by assumption. reflexivity.
Qed.
Print Assumptions C129_cut_flux.

(** Scalar and vectorised version agree in one and two dimensions if the mass flux is not negative.  (For negative mass fluxes see
    C36: the scalar HLLEM flux has the wrong sign in the other velocities.) *)
Theorem C129_versions_partial : forall n lim g dt dx d s0 s1 s2 s3 old, (1 <= n <= 2)%nat -> (d < n)%nat -> 0 <= f_rho (CharFlux n lim g dt dx d s0 s1 s2 s3) ->
  CharFluxScalar n lim g dt dx d s0 s1 s2 s3 old = CharFlux n lim g dt dx d s0 s1 s2 s3.
Proof. intros n lim g dt dx d s0 s1 s2 s3 old N D H. unfold CharFluxScalar. apply agree; auto. Qed.
Print Assumptions C129_versions_partial.

Example C129_example : let g := mkGas (7 / 5) (5 / 2) in
  CharFlux 2 VanLeer g 1 1 1 (mkCell 1 (fun i => if Nat.eqb i 1 then 0 else 5) 1 1) (at_rest 3 0) (at_rest 4 0) (at_rest 2 0) = mkF 0 [0; 1] 0 [] /\
  same 1 (Reconstruct 1 (SlopesOf 1 VanLeer (mkCell 1 (fun _ => 0) 1 1) (mkCell 2 (fun _ => 2) 3 1) (mkCell 3 (fun _ => 6) 5 1) 0) false (mkCell 2 (fun _ => 2) 3 1) (1 / 2) 0) (mkPrim (7 / 4) (fun _ => 1) 3).
Proof.
  cbv zeta. split.
  - rewrite (C129_contact _ _ _ _ _ 1); try lia; try (cbn; lra); [reflexivity|]. intros s H. cbn in H. destruct H as [<- | [<- | [<- | [<- | []]]]]; cbn; repeat split; lra.
  - replace (1 / 2) with (1 / 2 / 1) by field. pose proof (C129_straight 1 0 VanLeer false (mkCell 1 (fun _ => 0) 1 1) (mkCell 2 (fun _ => 2) 3 1) (mkCell 3 (fun _ => 6) 5 1) (mkPrim 1 (fun _ => 1) 2) (1 / 2) 1) as H.
    destruct H as (A & B & C); try lia; try (cbn; lra).
    + intros x. unfold VanLeer. destruct (Rlt_dec 0 (2 * x * x)) as [P|P]; [field; nra|nra].
    + unfold same, prim_of. cbn. repeat split; try lra; intros; lra.
    + unfold same, prim_of. cbn. repeat split; try lra; intros; lra.
    + unfold same. rewrite A, B. unfold taylor, rate, prim_of. cbn [rho vel pre density momentum pressure speed_of_sound]. split; [lra|]. split; [lra|]. intros i Hi. rewrite C by exact Hi. assert (i = 0)%nat as -> by lia. unfold taylor, rate, prim_of. cbn. lra.
Qed.
