(** Lemmas for C128 and C129. *)
From Coq Require Import List Reals Lra Lia Bool Arith Psatz.
From Verif Require Import GasModel GasSpec GasProofs HllemModel HllemSpec HllemProofs LimiterModel PrimMusclModel PrimMusclSpec PrimMusclProofs.
Import ListNotations.
Local Open Scope R_scope.

Lemma limiter_edge_right qL qM qR : Rmin qM qR <= qM + 1 / 2 * limiter qL qM qR <= Rmax qM qR.
Proof.
  destruct (Rle_dec ((qM - qL) * (qR - qM)) 0) as [E|E].
  - rewrite limiter_extremum by exact E. pose proof (Rmin_l qM qR). pose proof (Rmax_l qM qR). lra.
  - destruct (Rle_dec qM qR) as [A|A].
    + assert (qL <= qM) by nra. destruct (limiter_bounds qL qM qR ltac:(lra) ltac:(lra)) as (B & C & D). rewrite Rmin_left, Rmax_right by lra. lra.
    + assert (qM <= qL) by nra. pose proof (limiter_bounds (- qL) (- qM) (- qR) ltac:(lra) ltac:(lra)) as (B & C & D). rewrite limiter_neg in B, C, D. rewrite Rmin_right, Rmax_left by lra. lra.
Qed.
Lemma limiter_edge_left qL qM qR : Rmin qL qM <= qM - 1 / 2 * limiter qL qM qR <= Rmax qL qM.
Proof. pose proof (limiter_edge_right qR qM qL) as H. rewrite limiter_swap in H. rewrite (Rmin_comm qL), (Rmax_comm qL). lra. Qed.
Lemma limiter_straight q e : eps < Rabs e -> limiter (q - e) q (q + e) = e.
Proof.
  intros H. unfold Rabs in H. destruct (Rcase_abs e) as [N|N].
  - replace (limiter (q - e) q (q + e)) with (- limiter (- (q - e)) (- q) (- (q + e))) by (rewrite limiter_neg; ring). unfold eps in H. rewrite limiter_up; try (unfold eps; lra). replace (- q - - (q - e)) with (- e) by ring. replace (- (q + e) - - q) with (- e) by ring. rewrite Rmin_left by lra. unfold harmonic. field. lra.
  - unfold eps in H. rewrite limiter_up; try (unfold eps; lra). replace (q - (q - e)) with e by ring. replace (q + e - q) with e by ring. rewrite Rmin_left by lra. unfold harmonic. field. lra.
Qed.
Lemma limiter_const q : limiter q q q = 0. Proof. apply limiter_extremum. lra. Qed.

(** ** MusclHancockPrim *)
Lemma rec_left_uniform lambda d a q n : same n (rec_left lambda d q a (limited q q q)) q.
Proof. unfold same, rec_left, limited. cbn [rho vel pre]. rewrite !limiter_const. split; [ring|]. split; [ring|]. intros i _. rewrite limiter_const. destruct (Nat.eqb i d); unfold Rdiv; ring. Qed.
Lemma rec_right_uniform lambda d a q n : same n (rec_right lambda d q a (limited q q q)) q.
Proof. unfold same, rec_right, limited. cbn [rho vel pre]. rewrite !limiter_const. split; [ring|]. split; [ring|]. intros i _. rewrite limiter_const. destruct (Nat.eqb i d); unfold Rdiv; ring. Qed.
Lemma prim_uniform n g dt dx d q : (1 <= n <= 3)%nat -> (d < n)%nat -> gas_ok g -> 0 < density q -> 0 < pressure q ->
  PrimFlux n g dt dx d q q q q = euler_flux 1 (state n g (prim_of q)) d.
Proof.
  intros N D G A B. unfold PrimFlux. rewrite (state_same n g _ _ (rec_right_uniform _ _ _ _ n)). apply hllem_same; auto. apply rec_left_uniform.
Qed.
Lemma prim_contact n g dt dx d p s0 s1 s2 s3 : (1 <= n <= 3)%nat -> (d < n)%nat -> gas_ok g -> 0 < p ->
  (forall s, In s [s0; s1; s2; s3] -> 0 < density s /\ pressure s = p /\ momentum s d = 0) -> PrimFlux n g dt dx d s0 s1 s2 s3 = pressure_flux n d p 0.
Proof.
  intros N D G P H. destruct (H s0) as (R0 & P0 & M0); [cbn; tauto|]. destruct (H s1) as (R1 & P1 & M1); [cbn; tauto|]. destruct (H s2) as (R2 & P2 & M2); [cbn; tauto|]. destruct (H s3) as (R3 & P3 & M3); [cbn; tauto|]. clear H.
  unfold PrimFlux. cbv zeta.
  set (v := rec_left _ _ _ _ _). set (w := rec_right _ _ _ _ _).
  assert (Z : forall r, 0 / r = 0) by (intros; unfold Rdiv; ring).
  assert (V : rho v = density s1 + 1 / 2 * limiter (density s0) (density s1) (density s2)) by (unfold v, rec_left, limited, prim_of; cbn [rho vel pre]; rewrite M0, M1, M2, !Z, limiter_const; ring).
  assert (W : rho w = density s2 - 1 / 2 * limiter (density s1) (density s2) (density s3)) by (unfold w, rec_right, limited, prim_of; cbn [rho vel pre]; rewrite M1, M2, M3, !Z, limiter_const; ring).
  assert (Vp : pre v = p) by (unfold v, rec_left, limited, prim_of; cbn [rho vel pre]; rewrite M0, M1, M2, P0, P1, P2, !Z, !limiter_const; ring).
  assert (Wp : pre w = p) by (unfold w, rec_right, limited, prim_of; cbn [rho vel pre]; rewrite M1, M2, M3, P1, P2, P3, !Z, !limiter_const; ring).
  assert (Vu : vel v d = 0) by (unfold v, rec_left, limited, prim_of; cbn [rho vel pre]; rewrite Nat.eqb_refl, M0, M1, M2, P0, P1, P2, !Z, !limiter_const; unfold Rdiv; ring).
  assert (Wu : vel w d = 0) by (unfold w, rec_right, limited, prim_of; cbn [rho vel pre]; rewrite Nat.eqb_refl, M1, M2, M3, P1, P2, P3, !Z, !limiter_const; unfold Rdiv; ring).
  pose proof (limiter_edge_right (density s0) (density s1) (density s2)) as E1. pose proof (limiter_edge_left (density s1) (density s2) (density s3)) as E2. pose proof (Rmin_glb_lt (density s1) (density s2) 0 R1 R2).
  rewrite hllem_contact; auto; try lra; congruence.
Qed.

(** density on a straight line, carried along *)
Definition drift (r p : R) (u : nat -> R) : prim := mkPrim r u p.
Lemma prim_advected n g dt dx d (u : nat -> R) p r e s0 s1 s2 s3 : (1 <= n <= 3)%nat -> (d < n)%nat -> gas_ok g -> 0 < p -> dx <> 0 -> eps < Rabs e ->
  (forall j s, In (j, s) [(-1, s0); (0, s1); (1, s2); (2, s3)] -> 0 < density s /\ density s = r + j * e /\ pressure s = p /\ forall i, (i < n)%nat -> momentum s i = density s * u i) ->
  0 < r + e / 2 - u d * dt / 2 * (e / dx) -> PrimFlux n g dt dx d s0 s1 s2 s3 = euler_flux 1 (state n g (mkPrim (r + e / 2 - u d * dt / 2 * (e / dx)) u p)) d.
Proof.
  intros N D G P Hx He H Q. destruct (H (-1) s0) as (R0 & D0 & P0 & M0); [cbn; tauto|]. destruct (H 0 s1) as (R1 & D1 & P1 & M1); [cbn; tauto|]. destruct (H 1 s2) as (R2 & D2 & P2 & M2); [cbn; tauto|]. destruct (H 2 s3) as (R3 & D3 & P3 & M3); [cbn; tauto|]. clear H.
  unfold PrimFlux. cbv zeta. set (v := rec_left _ _ _ _ _). set (w := rec_right _ _ _ _ _). set (f := mkPrim _ u p).
  assert (V : forall s i, 0 < density s -> (forall i, (i < n)%nat -> momentum s i = density s * u i) -> (i < n)%nat -> momentum s i / density s = u i) by (intros s i A B C; rewrite B by exact C; field; lra).
  assert (Lv : limiter (density s0) (density s1) (density s2) = e) by (rewrite D0, D1, D2; replace (r + -1 * e) with ((r + 0 * e) - e) by ring; replace (r + 1 * e) with ((r + 0 * e) + e) by ring; apply limiter_straight; exact He).
  assert (Lw : limiter (density s1) (density s2) (density s3) = e) by (rewrite D1, D2, D3; replace (r + 0 * e) with ((r + 1 * e) - e) by ring; replace (r + 2 * e) with ((r + 1 * e) + e) by ring; apply limiter_straight; exact He).
  assert (A : same n v f).
  { unfold same, v, f, rec_left, limited, prim_of. cbn [rho vel pre]. split; [|split].
    1: rewrite !V by auto; rewrite !limiter_const, Lv, D1; field; exact Hx.
    1: rewrite !V by auto; rewrite P0, P1, P2, !limiter_const; ring.
    intros i Hi. rewrite !V by auto. rewrite P0, P1, P2, !limiter_const. destruct (Nat.eqb i d); unfold Rdiv; ring. }
  assert (B : same n w f).
  { unfold same, w, f, rec_right, limited, prim_of. cbn [rho vel pre]. split; [|split].
    1: rewrite !V by auto; rewrite !limiter_const, Lw, D2; field; exact Hx.
    1: rewrite !V by auto; rewrite P1, P2, P3, !limiter_const; ring.
    intros i Hi. rewrite !V by auto. rewrite P1, P2, P3, !limiter_const. destruct (Nat.eqb i d); unfold Rdiv; ring. }
  rewrite (state_same n g w f B). apply hllem_same; auto.
Qed.
Lemma masked_open n g dt dx d face v0 v3 others old s0 s1 s2 s3 : 0 < face ->
  PrimFluxMasked n g dt dx d face v0 v3 others old s0 s1 s2 s3 = PrimFlux n g dt dx d (if Rlt_dec 0 v0 then s0 else s1) s1 s2 (if Rlt_dec 0 v3 then s3 else s2).
Proof.
  intros H. unfold PrimFluxMasked, positive. destruct (Rlt_dec 0 face) as [_|N]; [|lra]. cbn [orb negb]. unfold outer, inner, select. destruct (Rlt_dec 0 v0), (Rlt_dec 0 v3); reflexivity.
Qed.
Lemma mirror_slopes d l m r : same (S d) (limited (turn d r) (turn d m) (turn d l)) (turn d (mkPrim (- rho (limited l m r)) (fun i => - vel (limited l m r) i) (- pre (limited l m r)))).
Proof.
  unfold same, limited, turn. cbn [rho vel pre]. split; [apply limiter_swap|]. split; [apply limiter_swap|]. intros i _. destruct (Nat.eqb i d); [|apply limiter_swap]. rewrite limiter_neg, limiter_swap. ring.
Qed.
Lemma rec_mirror n lambda d a l m r : rho m <> 0 -> same n (rec_left lambda d (turn d m) a (limited (turn d r) (turn d m) (turn d l))) (turn d (rec_right lambda d m a (limited l m r))).
Proof.
  intros H. unfold same, rec_left, rec_right, limited, turn. cbn [rho vel pre]. rewrite Nat.eqb_refl. rewrite (limiter_swap (rho l)), (limiter_swap (pre l)), limiter_neg, (limiter_swap (vel l d)). split; [ring|]. split; [ring|]. intros i _.
  destruct (Nat.eqb_spec i d) as [->|E]; [rewrite limiter_neg|]; rewrite (limiter_swap (vel l _)); field; exact H.
Qed.

(** ** MusclHancockCharacteristic *)
Lemma recombine_inverse l r rhoc ooc2 d n : (n <= 3)%nat -> (d < n)%nat -> rhoc <> 0 -> let '(ix, iy, iz) := MakeIndices d in
  same n (Recombine (ComputeAmplitudes l r rhoc ooc2 ix iy iz) rhoc ooc2 d) (mkPrim (rho r - rho l) (fun i => vel r i - vel l i) (pre r - pre l)).
Proof.
  intros N D H. destruct (indices d ltac:(lia)) as [-> | [-> | ->]]; cbn [MakeIndices]; unfold same; (split; [cbn; field|]); (split; [cbn; field|]); intros i Hi; assert (i = 0 \/ i = 1 \/ i = 2)%nat as [-> | [-> | ->]] by lia; cbn; field; exact H.
Qed.
Definition no_slope : chars := mkChars 0 0 0 0 0.
Lemma char_flat n right q lambda d : (n <= 3)%nat -> (d < n)%nat -> density q <> 0 -> speed_of_sound q <> 0 -> same n (Reconstruct n no_slope right q lambda d) (prim_of q).
Proof.
  intros N D H1 H2. destruct q as [r mo p c]. cbn [density speed_of_sound] in *. unfold same.
  assert (n = 1 \/ n = 2 \/ n = 3)%nat as [-> | [-> | ->]] by lia; destruct (indices d ltac:(lia)) as [-> | [-> | ->]]; try (exfalso; lia); (split; [destruct right; cbn; field; auto|]); (split; [destruct right; cbn; field; auto|]); intros i Hi;
    assert (i = 0 \/ i = 1 \/ i = 2)%nat as [-> | [-> | ->]] by lia; try (exfalso; lia); destruct right; cbn; field; auto.
Qed.
Lemma slopes_masked n lim v0 v1 v2 l m r d : (forall x, lim 0 x = 0) -> ~ (0 < v0 /\ 0 < v1 /\ 0 < v2) -> SlopesOfMasked n lim v0 v1 v2 l m r d = no_slope.
Proof.
  intros L H. unfold SlopesOfMasked, ComputeSlopesMasked, positive. replace ((if Rlt_dec 0 v0 then true else false) && (if Rlt_dec 0 v1 then true else false) && (if Rlt_dec 0 v2 then true else false)) with false.
  - unfold MakeIndices, limit, mask_chars, select. cbn [minus zero plus cv cw]. rewrite !L. reflexivity.
  - destruct (Rlt_dec 0 v0), (Rlt_dec 0 v1), (Rlt_dec 0 v2); try reflexivity. exfalso. tauto.
Qed.
Lemma slopes_open n lim v0 v1 v2 l m r d : 0 < v0 -> 0 < v1 -> 0 < v2 -> SlopesOfMasked n lim v0 v1 v2 l m r d = SlopesOf n lim l m r d.
Proof. intros A B C. unfold SlopesOfMasked, positive. destruct (Rlt_dec 0 v0) as [_|N]; [|lra]. destruct (Rlt_dec 0 v1) as [_|N]; [|lra]. destruct (Rlt_dec 0 v2) as [_|N]; [|lra]. reflexivity. Qed.
Lemma vanleer_zero x : VanLeer 0 x = 0.
Proof. unfold VanLeer. destruct (Rlt_dec 0 (2 * 0 * x)) as [N|N]; [lra|reflexivity]. Qed.
Lemma vanleer_edge a b r : 0 < r -> 0 < r + b -> 0 < r - a -> 0 < r + 1 / 2 * VanLeer a b /\ 0 < r - 1 / 2 * VanLeer a b.
Proof.
  intros H1 H2 H3. unfold VanLeer. destruct (Rlt_dec 0 (2 * a * b)) as [P|P]; [|lra]. destruct (Rlt_dec 0 a) as [A|A].
  - assert (0 < b) by nra. destruct (Rle_dec a b) as [Q|Q].
    + destruct (harmonic_le a b ltac:(lra) ltac:(lra)) as (K1 & K2 & K3 & K4). unfold harmonic in *. replace (2 * (a * b)) with (2 * a * b) in * by ring. lra.
    + destruct (harmonic_le b a ltac:(lra) ltac:(lra)) as (K1 & K2 & K3 & K4). unfold harmonic in *. replace (2 * (b * a)) with (2 * a * b) in * by ring. rewrite (Rplus_comm b a) in *. lra.
  - assert (N : b < 0) by nra. assert (N' : a < 0) by nra. assert (E : 2 * a * b / (a + b) = - (2 * (- a * - b) / (- a + - b))) by (field; lra). rewrite E. destruct (Rle_dec (- a) (- b)) as [Q|Q].
    + destruct (harmonic_le (- a) (- b) ltac:(lra) ltac:(lra)) as (K1 & K2 & K3 & K4). unfold harmonic in *. lra.
    + destruct (harmonic_le (- b) (- a) ltac:(lra) ltac:(lra)) as (K1 & K2 & K3 & K4). unfold harmonic in *. replace (- b * - a) with (- a * - b) in * by ring. rewrite (Rplus_comm (- b)) in *. lra.
Qed.
Lemma vanleer_same_0 : VanLeer 0 0 = 0. Proof. apply vanleer_zero. Qed.
Lemma char_uniform n g dt dx d lim q : (1 <= n <= 3)%nat -> (d < n)%nat -> gas_ok g -> 0 < density q -> 0 < pressure q -> 0 < speed_of_sound q -> lim 0 0 = 0 ->
  CharFlux n lim g dt dx d q q q q = euler_flux 1 (state n g (prim_of q)) d.
Proof.
  intros N D G A B C L. unfold CharFlux. assert (E : SlopesOf n lim q q q d = no_slope).
  { unfold SlopesOf, ComputeSlopes, MakeIndices, limit, ComputeAmplitudes, no_slope. cbn [minus zero plus cv cw]. rewrite !Rminus_eq_0, !Rmult_0_r, !Rminus_0_r, !Rplus_0_r, !L. reflexivity. }
  rewrite E. rewrite !(complete_same n g _ _ (char_flat n _ q _ d ltac:(lia) D ltac:(lra) ltac:(lra))). rewrite complete_state by (cbn; lra). apply hllem_same; auto. repeat split; reflexivity.
Qed.
Lemma char_contact n g dt dx d p s0 s1 s2 s3 : (1 <= n <= 3)%nat -> (d < n)%nat -> gas_ok g -> 0 < p ->
  (forall s, In s [s0; s1; s2; s3] -> 0 < density s /\ pressure s = p /\ momentum s d = 0 /\ 0 < speed_of_sound s) -> CharFlux n VanLeer g dt dx d s0 s1 s2 s3 = pressure_flux n d p 0.
Proof.
  intros N D G P H. destruct (H s0) as (R0 & P0 & M0 & C0); [cbn; tauto|]. destruct (H s1) as (R1 & P1 & M1 & C1); [cbn; tauto|]. destruct (H s2) as (R2 & P2 & M2 & C2); [cbn; tauto|]. destruct (H s3) as (R3 & P3 & M3 & C3); [cbn; tauto|]. clear H.
  unfold CharFlux. cbv zeta. set (v := Reconstruct n _ false _ _ _). set (w := Reconstruct n _ true _ _ _).
  assert (Z : forall r, 0 / r = 0) by (intros; unfold Rdiv; ring).
  assert (T : Nat.ltb d n = true) by (apply Nat.ltb_lt; exact D). assert (D3 : (d < 3)%nat) by lia.
  assert (K : forall a b c (right : bool) lam, pressure a = p -> pressure b = p -> pressure c = p -> momentum a d = 0 -> momentum b d = 0 -> momentum c d = 0 ->
    let x := Reconstruct n (SlopesOf n VanLeer a b c d) right b lam d in
    rho x = density b + (if right then -1 else 1) * (1 / 2) * VanLeer (density b - density a) (density c - density b) /\ pre x = p /\ vel x d = 0).
  { intros a b c right lam Pa Pb Pc Ma Mb Mc x. unfold x, Reconstruct, SlopesOf, ComputeSlopes, Recombine, DoTimeStep, ComputeAmplitudes, Primitives, limit. assert (I1 : Nat.eqb d (Nat.modulo (d + 1) 3) = false) by (destruct (indices d D3) as [-> | [-> | ->]]; reflexivity). assert (I2 : Nat.eqb d (Nat.modulo (Nat.modulo (d + 1) 3 + 1) 3) = false) by (destruct (indices d D3) as [-> | [-> | ->]]; reflexivity).
    unfold MakeIndices. cbn [rho vel pre minus zero plus cv cw]. rewrite I1, I2, Nat.eqb_refl, T, Pa, Pb, Pc, Ma, Mb, Mc, !Z. replace (p - p) with 0 by ring. replace (0 - 0) with 0 by ring. rewrite !Rmult_0_r, !Rminus_0_r, !Rplus_0_r, vanleer_zero. split; [destruct right; ring|]. split; [destruct right; ring|]. unfold Rdiv. ring. }
  destruct (K s0 s1 s2 false (dt / dx)) as (V & Vp & Vu); try assumption. destruct (K s1 s2 s3 true (dt / dx)) as (W & Wp & Wu); try assumption. fold v in V, Vp, Vu. fold w in W, Wp, Wu.
  destruct (vanleer_edge (density s1 - density s0) (density s2 - density s1) (density s1) R1 ltac:(lra) ltac:(lra)) as [E1 _]. destruct (vanleer_edge (density s2 - density s1) (density s3 - density s2) (density s2) R2 ltac:(lra) ltac:(lra)) as [_ E2].
  rewrite !complete_state by lra. rewrite hllem_contact; auto; try lra. rewrite Vp; reflexivity.
Qed.
