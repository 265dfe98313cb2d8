(** C114-C118: reconstructions at the faces of the cells and the MUSCL-Hancock method built from them. *)
From Coq Require Import List Reals Arith Bool Lia Lra Psatz.
From Verif Require Import LimiterModel LimiterSpec LimiterProofs ReconstructModel ReconstructSpec ReconstructProofs ReconstructProofs2 ReconstructProofs3 ReconstructProofs4.
Import ListNotations.
Local Open Scope R_scope.

(** ** C114: the reconstruction is the value of the linearised flow at the face after half a time step *)

(** Primitive variables, every limiter which is 1 for equal slopes *)
Theorem C114_primitive : forall n g old L f dt dx ix up,
  (ix < n)%nat -> 0 < dx -> L 1 = 1 -> f_density f 0 (- dx) <> 0 -> f_density f 0 0 <> 0 -> f_density f 0 dx <> 0 ->
  let qL := CompleteFromPrim n g (sample f 0 (- dx)) in
  let qM := CompleteFromPrim n g (sample f 0 0) in
  let qR := CompleteFromPrim n g (sample f 0 dx) in
  affine_flow f -> linearised n 1 (f_density f 0 0) (f_velocity f ix 0 0) (speed_of_sound qM) ix f ->
  same_state n (PrimitiveReconstruct n g old qM (PrimitiveGradient L qL qM qR dx) dt dx ix up)
    (CompleteFromPrim n g (sample f (dt / 2) (if up then dx / 2 else - (dx / 2)))).
Proof.
  intros n g old L f dt dx ix up H Hx HL N1 N2 N3 qL qM qR A Lin. replace (if up then dx / 2 else - (dx / 2)) with (sign up * (dx / 2)) by (destruct up; cbn; ring).
  exact (primitive_exact n g old L f dt dx ix up _ H Hx HL N1 N2 N3 eq_refl A Lin).
Qed.
Print Assumptions C114_primitive.

(** Characteristic variables, if the reference Mach number is 1 *)
Theorem C114_characteristics : forall n g old oldg L f dt dx ix up,
  (ix < n)%nat -> 0 < dx -> L 1 = 1 -> Msq g = 1 -> f_density f 0 (- dx) <> 0 -> f_density f 0 0 <> 0 -> f_density f 0 dx <> 0 ->
  let qL := CompleteFromPrim n g (sample f 0 (- dx)) in
  let qM := CompleteFromPrim n g (sample f 0 0) in
  let qR := CompleteFromPrim n g (sample f 0 dx) in
  speed_of_sound qM <> 0 -> affine_flow f -> linearised n 1 (f_density f 0 0) (f_velocity f ix 0 0) (speed_of_sound qM) ix f ->
  same_state n (CharacteristicsReconstruct n g old qM (CharacteristicsGradient n g L oldg qL qM qR dx ix) dt dx ix up)
    (CompleteFromPrim n g (sample f (dt / 2) (if up then dx / 2 else - (dx / 2)))).
Proof.
  intros n g old oldg L f dt dx ix up H Hx HL HM N1 N2 N3 qL qM qR Hc A Lin. replace (if up then dx / 2 else - (dx / 2)) with (sign up * (dx / 2)) by (destruct up; cbn; ring).
  exact (characteristics_exact n g old oldg L f dt dx ix up H Hx HL HM N1 N2 N3 Hc A Lin).
Qed.
Print Assumptions C114_characteristics.

(** The array version computes the same in every lane if the reference Mach number is 1. *)
Theorem C114_lanes : forall n g old q0 dK dt dx ix up, Msq g = 1 ->
  CharacteristicsReconstruct_lane n g old q0 dK dt dx ix up = CharacteristicsReconstruct n g old q0 dK dt dx ix up.
Proof. exact characteristics_lane. Qed.
Print Assumptions C114_lanes.

Lemma limiters_one : NoLimiter2 1 = 1 /\ MinModLimiter 1 = 1 /\ VanLeerLimiter 1 = 1.
Proof. unfold NoLimiter2, MinModLimiter, VanLeerLimiter. split; [reflexivity|]. split; [unfold Rmin; destruct (Rle_dec _ _)|]; lra. Qed.

Definition air : gas := mkGas (7 / 5) (5 / 2) 1.
Definition wind : flow :=
  mkFlow (fun t x => 1 + / 10 * x + - (3 / 10) * t) (fun d t x => if Nat.eqb d 0 then 1 + / 5 * x + - (3 / 10) * t else 2 + 3 * x + - 3 * t)
    (fun t x => 1 + / 10 * x + - (19 / 50) * t) (fun _ t x => 0 + / 2 * x + - / 2 * t) (fun _ _ _ => 0).
Example C114_example : affine_flow wind /\ (0 < 2)%nat /\ 0 < 1 /\ MinModLimiter 1 = 1 /\ VanLeerLimiter 1 = 1 /\ Msq air = 1 /\
  f_density wind 0 (- (1)) <> 0 /\ f_density wind 0 0 <> 0 /\ f_density wind 0 1 <> 0 /\
  speed_of_sound (CompleteFromPrim 2 air (sample wind 0 0)) <> 0 /\
  linearised 2 1 (f_density wind 0 0) (f_velocity wind 0 0 0) (speed_of_sound (CompleteFromPrim 2 air (sample wind 0 0))) 0 wind /\
  f_velocity wind 0 (1 / 20) (1 / 2) = 217 / 200.
Proof.
  assert (C : speed_of_sound (CompleteFromPrim 2 air (sample wind 0 0)) * speed_of_sound (CompleteFromPrim 2 air (sample wind 0 0)) = 7 / 5).
  { cbn. replace (1 + / 10 * 0 + - (3 / 10) * 0) with 1 by lra. rewrite sqrt_sqrt; lra. }
  set (c := speed_of_sound (CompleteFromPrim 2 air (sample wind 0 0))) in *. clearbody c.
  split. { repeat split; [exists 1, (/ 10), (- (3 / 10))| |exists 1, (/ 10), (- (19 / 50))|intros i; exists 0, (/ 2), (- / 2)|intros i; exists 0, 0, 0]; try (intros; cbn; ring).
    intros d. cbn. destruct (Nat.eqb d 0); [exists 1, (/ 5), (- (3 / 10))|exists 2, 3, (- 3)]; intros; reflexivity. }
  split; [lia|]. split; [lra|]. split; [apply limiters_one|]. split; [apply limiters_one|]. split; [reflexivity|]. cbn. split; [lra|]. split; [lra|]. split; [lra|].
  split; [intros Z; rewrite Z in C; lra|]. split; [|lra]. split; [|split; [|split]].
  - intros t x. exists (- (3 / 10)), (/ 10), (- (3 / 10)), (/ 5), (- (19 / 50)), (/ 10). cbn. repeat split; try apply ddt_affine; try apply ddx_affine; try (rewrite C); replace (1 + / 10 * 0 + - (3 / 10) * 0) with 1 by lra; lra.
  - intros d Hd N t x. exists (- 3), 3. destruct d as [|d]; [contradiction|]. cbn. repeat split; [apply ddt_affine|apply ddx_affine|lra].
  - intros i t x. exists (- / 2), (/ 2). cbn. repeat split; [apply ddt_affine|apply ddx_affine|lra].
  - intros i. exact (const_carried _ 0).
Qed.

(** For every other reference Mach number no version gives the value of the linearised flow, and the scalar and the
    array version differ. *)
Theorem C114_mach_refuted : forall g L, L 1 = 1 -> 0 < gamma g -> 0 < Msq g -> Msq g <> 1 ->
  exists f dt, 0 < dt /\ affine_flow f /\ (forall x, f_density f 0 x = 1) /\
    let q x := CompleteFromPrim 1 g (sample f 0 x) in
    linearised 1 (Msq g) 1 0 (speed_of_sound (q 0)) 0 f /\
    (forall x, Rabs x <= 1 -> 0 < f_pressure f 0 x) /\
    forall (old oldg : nat -> R) (up : bool),
      let exact := CompleteFromPrim 1 g (sample f (dt / 2) (if up then 1 / 2 else - (1 / 2))) in
      let dK := CharacteristicsGradient 1 g L oldg (q (- (1))) (q 0) (q 1) 1 0 in
      c_momentum (PrimitiveReconstruct 1 g old (q 0) (PrimitiveGradient L (q (- (1))) (q 0) (q 1) 1) dt 1 0 up) 0%nat <> c_momentum exact 0%nat /\
      c_momentum (CharacteristicsReconstruct 1 g old (q 0) dK dt 1 0 up) 0%nat <> c_momentum exact 0%nat /\
      c_momentum (CharacteristicsReconstruct_lane 1 g old (q 0) dK dt 1 0 up) 0%nat <> c_momentum exact 0%nat /\
      c_momentum (CharacteristicsReconstruct_lane 1 g old (q 0) dK dt 1 0 up) 0%nat <> c_momentum (CharacteristicsReconstruct 1 g old (q 0) dK dt 1 0 up) 0%nat.
Proof.
  intros g L HL HG HM N. exists (push (Msq g)), 1. split; [lra|]. split; [apply push_affine|]. split; [reflexivity|]. cbn zeta.
  split; [apply push_linearised; lra|]. split. { intros x Hx. cbn. unfold Rabs in Hx. destruct (Rcase_abs x); lra. }
  intros old oldg up. unfold CharacteristicsReconstruct, CharacteristicsReconstruct_lane.
  rewrite (push_primitive g old L (Msq g) 1 up HL) by lra. rewrite !(push_char g old oldg L (Msq g) _ 1 up HL HG) by lra.
  assert (E : c_momentum (CompleteFromPrim 1 g (sample (push (Msq g)) (1 / 2) (if up then 1 / 2 else - (1 / 2)))) 0%nat = - / (8 * Msq g)) by (cbn; field; lra). rewrite E.
  set (m := / Msq g). assert (P : 0 < m) by (apply Rinv_0_lt_compat; exact HM). assert (E2 : / (8 * Msq g) = m / 8) by (unfold m; field; lra). rewrite E2.
  replace (1 / Msq g) with m by (unfold m; field; lra). assert (M1 : m <> 1). { intros Z. apply N. unfold m in Z. rewrite <- (Rinv_inv (Msq g)), Z. field. }
  repeat split; intros Z; apply M1; nra.
Qed.
Print Assumptions C114_mach_refuted.

(** ** C115: undoing a reconstruction *)

(** Without a gradient of the pressure the inverse returns the state of the cell, except for passive scalars. *)
Theorem C115_no_pressure_gradient : forall n g old old' q0 dw dt dx ix up,
  (ix < n)%nat -> dx <> 0 -> proper g q0 -> c_density (PrimitiveReconstruct n g old q0 dw dt dx ix up) <> 0 -> pressure dw = 0 ->
  1 - dt / 2 * velocity dw ix <> 0 -> 1 - gamma g * (dt / 2) * velocity dw ix <> 0 ->
  exists r, ReconstructInvers n g old' (PrimitiveReconstruct n g old q0 dw dt dx ix up) dw dt dx ix up = Some r /\
    c_density r = c_density q0 /\ (forall d, (d < n)%nat -> c_momentum r d = c_momentum q0 d) /\ c_pressure r = c_pressure q0 /\
    (forall i, c_species r i = c_species q0 i).
Proof.
  intros n g old old' q0 dw dt dx ix up H Hx Hq Hr Hp N1 N2.
  destruct (invers_defined n g old' (PrimitiveReconstruct n g old q0 dw dt dx ix up) dw dt dx ix up Hp N1 N2) as (r & E). exists r. split; [exact E|].
  exact (invers_spec n g old old' q0 dw dt dx ix up r H Hx Hq Hr Hp N1 N2 E).
Qed.
Print Assumptions C115_no_pressure_gradient.

Definition cell (rho u p : R) : complete := CompleteFromPrim 1 air (mkPrim rho (fun _ => u) p (fun _ => 0) (fun _ => 1)).
Lemma cell_proper rho u p : 0 < rho -> 0 < p -> proper air (cell rho u p).
Proof.
  intros H1 H2. unfold proper, cell. cbn. assert (P : 0 < 7 / 5 * p / rho) by (apply Rdiv_lt_0_compat; lra). repeat split; try assumption; [apply sqrt_lt_R0; exact P|].
  rewrite sqrt_sqrt by lra. field. lra.
Qed.
Lemma cell_rec old rho u p dw dt up : 0 < rho ->
  density (prim_rec 1 old (cell rho u p) dw dt 1 0 up) = rho + sign up * (1 / 2) * density dw - dt / 2 * (u * density dw + rho * velocity dw 0%nat) /\
  velocity (prim_rec 1 old (cell rho u p) dw dt 1 0 up) 0%nat = u + sign up * (1 / 2) * velocity dw 0%nat - dt / 2 * (u * velocity dw 0%nat + pressure dw / rho) /\
  (0 < p -> pressure (prim_rec 1 old (cell rho u p) dw dt 1 0 up) = p + sign up * (1 / 2) * pressure dw - dt / 2 * (u * pressure dw + 7 / 5 * p * velocity dw 0%nat)).
Proof.
  intros H. destruct (prim_rec_spec 1 old (cell rho u p) dw dt 1 0 up ltac:(lia) ltac:(lra)) as (P1 & P2 & _ & P4 & _); [cbn; lra|].
  rewrite P1, P2. split; [|split].
  - cbn. field. lra.
  - cbn. field. lra.
  - intros Hp. rewrite P4. destruct (cell_proper rho u p H Hp) as (_ & _ & _ & ->). cbn. field. lra.
Qed.

Example C115_example : let dw := mkPrim (1 / 5) (fun _ => 1 / 3) 0 (fun _ => 0) (fun _ => 0) in
  proper air (cell 1 2 1) /\ c_density (PrimitiveReconstruct 1 air (fun _ => 0) (cell 1 2 1) dw (1 / 10) 1 0 true) <> 0 /\ pressure dw = 0 /\
  1 - 1 / 10 / 2 * velocity dw 0%nat <> 0 /\ 1 - gamma air * (1 / 10 / 2) * velocity dw 0%nat <> 0.
Proof.
  cbn zeta. split; [apply cell_proper; lra|]. split; [|cbn; lra]. unfold PrimitiveReconstruct. cbn [CompleteFromPrim c_density].
  destruct (cell_rec (fun _ => 0) 1 2 1 (mkPrim (1 / 5) (fun _ => 1 / 3) 0 (fun _ => 0) (fun _ => 0)) (1 / 10) true) as (-> & _); [lra|]. cbn. lra.
Qed.

(** With a gradient of the pressure it returns another state (the sign of a term in the quadratic equation for the velocity
    is wrong). *)
Theorem C115_refuted : exists q0 dw dt r, 0 < dt /\ proper air q0 /\
  (let rec := PrimitiveReconstruct 1 air (fun _ => 0) q0 dw dt 1 0 true in
   0 < c_density rec /\ 0 < c_pressure rec /\ ReconstructInvers 1 air (fun _ => 0) rec dw dt 1 0 true = Some r) /\
  c_density r <> c_density q0.
Proof.
  set (dw := mkPrim 1 (fun _ => 0) 1 (fun _ => 0) (fun _ => 0)).
  destruct (cell_rec (fun _ => 0) 1 1 1 dw (1 / 5) true ltac:(lra)) as (E1 & E2 & E3). specialize (E3 ltac:(lra)).
  assert (E : exists r, ReconstructInvers 1 air (fun _ => 0) (PrimitiveReconstruct 1 air (fun _ => 0) (cell 1 1 1) dw (1 / 5) 1 0 true) dw (1 / 5) 1 0 true = Some r /\ c_density r <> 1).
  { unfold PrimitiveReconstruct. set (w := prim_rec 1 (fun _ => 0) (cell 1 1 1) dw (1 / 5) 1 0 true) in *. clearbody w. cbn [dw density velocity pressure sign] in E1, E2, E3.
    assert (W1 : density w = 14 / 10) by lra. assert (W2 : velocity w 0%nat = 9 / 10) by lra.
    assert (V : velocity (PrimFromComplete (CompleteFromPrim 1 air w)) 0%nat = 9 / 10) by (cbn; rewrite W2; field; lra).
    assert (U : density (PrimFromComplete (CompleteFromPrim 1 air w)) = 14 / 10) by (cbn; exact W1).
    unfold ReconstructInvers. rewrite V, U. cbn [dw density velocity pressure sign gamma air].
    destruct (Req_EM_T (1 - 1 / 2 * (1 / 5) * 0) 0); [lra|]. destruct (Req_EM_T (1 - 7 / 5 * (1 / 2 * (1 / 5)) * 0) 0); [lra|]. destruct (Req_EM_T 1 0); [lra|].
    match goal with |- context [Rlt_dec ?D 0] => destruct (Rlt_dec D 0); [lra|]; replace D with (13441 / 10000) by lra end.
    match goal with |- context [Req_EM_T ?A 0] => destruct (Req_EM_T A 0); [lra|] end.
    eexists. split; [reflexivity|]. cbn [CompleteFromPrim c_density density]. intros Z.
    assert (S1 : sqrt (13441 / 10000) * sqrt (13441 / 10000) = 13441 / 10000) by (apply sqrt_sqrt; lra). set (s := sqrt (13441 / 10000)) in *. clearbody s.
    assert (s = 119 / 100) by (unfold Rdiv in Z; nra || lra). subst s. lra. }
  destruct E as (r & Er & Nr). exists (cell 1 1 1), dw, (1 / 5), r. split; [lra|]. split; [apply cell_proper; lra|]. split; [|cbn; exact Nr]. cbn zeta.
  split; [|split; [|exact Er]]; unfold PrimitiveReconstruct; cbn [CompleteFromPrim c_density c_pressure]; [rewrite E1|rewrite E3]; cbn; lra.
Qed.
Print Assumptions C115_refuted.

(** If the density has no gradient but the pressure has one, the result is not a number. *)
Theorem C115_density_refuted : forall n g old rec dw dt dx ix up, density dw = 0 -> pressure dw <> 0 ->
  ReconstructInvers n g old rec dw dt dx ix up = None.
Proof.
  intros n g old rec dw dt dx ix up Hr Hp. unfold ReconstructInvers. rewrite Hr. destruct (Req_EM_T (1 - 1 / 2 * dt * velocity dw ix) 0); [reflexivity|].
  destruct (Req_EM_T (1 - gamma g * (1 / 2 * dt) * velocity dw ix) 0); [reflexivity|]. destruct (Req_EM_T (pressure dw) 0); [contradiction|].
  match goal with |- context [Rlt_dec ?D 0] => destruct (Rlt_dec D 0); [reflexivity|] end.
  match goal with |- context [Req_EM_T ?A 0] => destruct (Req_EM_T A 0) as [_|Z]; [reflexivity|exfalso; apply Z; ring] end.
Qed.
Print Assumptions C115_density_refuted.

(** Passive scalars are not recovered even if they are the only quantity with a gradient. *)
Theorem C115_scalars_refuted : exists q0 dw dt r, 0 < dt /\ proper air q0 /\ density dw = 0 /\ velocity dw 0%nat = 0 /\ pressure dw = 0 /\
  ReconstructInvers 1 air (fun _ => 0) (PrimitiveReconstruct 1 air (fun _ => 0) q0 dw dt 1 0 true) dw dt 1 0 true = Some r /\
  c_scalars r 0%nat <> c_scalars q0 0%nat.
Proof.
  set (dw := mkPrim 0 (fun _ => 0) 0 (fun _ => 0) (fun _ => 1)).
  destruct (invers_defined 1 air (fun _ => 0) (PrimitiveReconstruct 1 air (fun _ => 0) (cell 1 1 1) dw (1 / 5) 1 0 true) dw (1 / 5) 1 0 true) as (r & E); [reflexivity|cbn; lra|cbn; lra|].
  exists (cell 1 1 1), dw, (1 / 5), r. split; [lra|]. split; [apply cell_proper; lra|]. split; [reflexivity|]. split; [reflexivity|]. split; [reflexivity|]. split; [exact E|].
  destruct (prim_rec_spec 1 (fun _ => 0) (cell 1 1 1) dw (1 / 5) 1 0 true ltac:(lia) ltac:(lra)) as (P1 & P2 & _ & _ & _ & P6); [cbn; lra|].
  unfold PrimitiveReconstruct in E. set (w := prim_rec 1 (fun _ => 0) (cell 1 1 1) dw (1 / 5) 1 0 true) in *. clearbody w. specialize (P6 0%nat). cbn in P1, P2, P6.
  assert (W1 : density w = 1) by lra. assert (W2 : velocity w 0%nat = 1) by lra. assert (W3 : scalars w 0%nat = 14 / 10) by lra.
  unfold ReconstructInvers in E. cbn [dw density velocity pressure sign gamma air PrimFromComplete CompleteFromPrim c_density c_momentum c_pressure] in E. rewrite W1, W2 in E.
  destruct (Req_EM_T (1 - 1 / 2 * (1 / 5) * 0) 0); [lra|]. destruct (Req_EM_T (1 - 7 / 5 * (1 / 2 * (1 / 5)) * 0) 0); [lra|]. destruct (Req_EM_T 0 0); [|lra].
  injection E as <-. cbn. rewrite W1, W3. lra.
Qed.
Print Assumptions C115_scalars_refuted.

(** ** C116: reconstructed density and pressure stay positive for small time steps *)
Theorem C116_positive : forall n g old qL qM qR dt dx ix up k,
  (ix < n)%nat -> 0 < dx -> 0 <= dt -> 1 <= gamma g -> k * (1 + 2 * gamma g) <= 1 -> proper g qL -> proper g qM -> proper g qR ->
  (forall q, q = qL \/ q = qM \/ q = qR -> dt * Rabs (c_momentum q ix / c_density q) <= k * dx) ->
  let r := PrimitiveReconstruct n g old qM (PrimitiveGradient MinModLimiter qL qM qR dx) dt dx ix up in
  0 < c_density r /\ 0 < c_pressure r.
Proof. exact primitive_positive. Qed.
Print Assumptions C116_positive.

Example C116_example : 1 <= gamma air /\ / 4 * (1 + 2 * gamma air) <= 1 /\ proper air (cell 1 (- 2) 1) /\ proper air (cell 8 0 10) /\ proper air (cell 2 2 30) /\
  (forall q, q = cell 1 (- 2) 1 \/ q = cell 8 0 10 \/ q = cell 2 2 30 -> / 8 * Rabs (c_momentum q 0%nat / c_density q) <= / 4 * 1).
Proof.
  split; [cbn; lra|]. split; [cbn; lra|]. split; [apply cell_proper; lra|]. split; [apply cell_proper; lra|]. split; [apply cell_proper; lra|].
  intros q [-> | [-> | ->]]; cbn; unfold Rabs; destruct (Rcase_abs _); lra.
Qed.

(** A time step with CFL number 4/5 is not small enough: the reconstructed pressure can be negative. *)
Theorem C116_refuted : exists qL qM qR dt, 0 < dt /\ proper air qL /\ proper air qM /\ proper air qR /\
  (forall q, q = qL \/ q = qM \/ q = qR -> dt * (Rabs (c_momentum q 0%nat / c_density q) + speed_of_sound q) <= 4 / 5) /\
  c_pressure (PrimitiveReconstruct 1 air (fun _ => 0) qM (PrimitiveGradient MinModLimiter qL qM qR 1) dt 1 0 false) < 0.
Proof.
  exists (cell 1000 (- 1) (1 / 100)), (cell 1000 0 1), (cell 1000 1 (199 / 100)), (3 / 4). split; [lra|]. split; [apply cell_proper; lra|]. split; [apply cell_proper; lra|]. split; [apply cell_proper; lra|]. split.
  - assert (A : forall p, 0 < p -> p <= 2 -> sqrt (7 / 5 * p / 1000) <= / 18).
    { intros p H1 H2. rewrite <- (sqrt_square (/ 18)) by lra. apply sqrt_le_1_alt. lra. }
    intros q [-> | [-> | ->]]; cbn; [pose proof (A (1 / 100) ltac:(lra) ltac:(lra))|pose proof (A 1 ltac:(lra) ltac:(lra))|pose proof (A (199 / 100) ltac:(lra) ltac:(lra))]; unfold Rabs; destruct (Rcase_abs _); lra.
  - set (dw := PrimitiveGradient MinModLimiter _ _ _ _). assert (D : velocity dw 0%nat = 1 /\ pressure dw = 99 / 100).
    { unfold dw, PrimitiveGradient, slope_prim. cbn. rewrite !central_minmod. unfold MinMod. split; destruct (Rlt_dec _ _); unfold Rmax, Rmin; repeat (destruct (Rle_dec _ _)); lra. }
    destruct D as [D1 D2]. destruct (cell_rec (fun _ => 0) 1000 0 1 dw (3 / 4) false ltac:(lra)) as (_ & _ & E). specialize (E ltac:(lra)).
    unfold PrimitiveReconstruct. cbn [CompleteFromPrim c_pressure]. rewrite E, D1, D2. cbn. lra.
Qed.
Print Assumptions C116_refuted.

(** ** C117: MusclHancock2 with conservative variables is the MUSCL-Hancock method *)
Theorem C117_same_flux : forall (Q K : Type) (cons flux : Q -> K -> R) (complete_from : (K -> R) -> Q) (base : Q -> Q -> K -> R) s0 s1 s2 s3 dt dx, 0 < dx ->
  let muscl2 L := Muscl2 Q (K -> R) (K -> R) (ConservativeGradient Q K cons L) (ConservativeReconstruct Q K cons flux complete_from)
                    (fun l r _ _ => base l r) s0 s1 s2 s3 dt dx in
  let muscl phi := MusclFlux Q K cons flux complete_from base phi dt dx s0 s1 s2 s3 in
  muscl2 MinModLimiter = muscl MinMod /\ muscl2 VanLeerLimiter = muscl VanLeer.
Proof.
  intros Q K cons flux cf base s0 s1 s2 s3 dt dx Hx. split.
  - apply same_flux; [exact Hx|apply central_minmod|intros a b; apply minmod_scale; exact Hx].
  - apply same_flux; [exact Hx|apply central_vanleer|intros a b; apply vanleer_scale; exact Hx].
Qed.
Print Assumptions C117_same_flux.

(** Next to covered cells the flux is the one of the base method for the states of the cells; without covered cells the
    masks have no effect. *)
Theorem C117_cut_cells : forall (Q G F : Type) (grad : Q -> Q -> Q -> R -> G) (rec : Q -> G -> R -> R -> bool -> Q) (none : G)
    (masked : Q -> Q -> R -> R -> R -> R -> R -> F) face s0 s1 s2 s3 v0 v1 v2 v3 dt dx,
  (forall q t x up, rec q none t x up = q) ->
  (0 < v0 -> 0 < v1 -> 0 < v2 -> 0 < v3 ->
   Muscl2_masked Q G F grad rec none masked face s0 s1 s2 s3 v0 v1 v2 v3 dt dx =
   Muscl2 Q G F grad rec (fun l r t x => masked l r face v1 v2 t x) s0 s1 s2 s3 dt dx) /\
  (v0 <= 0 -> v3 <= 0 -> Muscl2_masked Q G F grad rec none masked face s0 s1 s2 s3 v0 v1 v2 v3 dt dx = masked s1 s2 face v1 v2 dt dx) /\
  (v0 <= 0 -> 0 < v1 -> 0 < v2 -> 0 < v3 ->
   Muscl2_masked Q G F grad rec none masked face s0 s1 s2 s3 v0 v1 v2 v3 dt dx = masked s1 (rec s2 (grad s1 s2 s3 dx) dt dx false) face v1 v2 dt dx) /\
  (0 < v0 -> 0 < v1 -> 0 < v2 -> v3 <= 0 ->
   Muscl2_masked Q G F grad rec none masked face s0 s1 s2 s3 v0 v1 v2 v3 dt dx = masked (rec s1 (grad s0 s1 s2 dx) dt dx true) s2 face v1 v2 dt dx).
Proof.
  intros Q G F grad rec none masked face s0 s1 s2 s3 v0 v1 v2 v3 dt dx Hn. unfold Muscl2_masked, Muscl2, Muscl2_gradients.
  repeat split; intros; destruct (Rlt_dec 0 v0); try lra; destruct (Rlt_dec 0 v3); try lra; destruct (Rlt_dec 0 v1); try lra; destruct (Rlt_dec 0 v2); try lra; cbn [andb]; rewrite ?Hn; reflexivity.
Qed.
Print Assumptions C117_cut_cells.

(** The reconstruction of a uniform state is the state, whatever the time step. *)
Theorem C117_uniform : forall n g old L w dt dx ix up, (ix < n)%nat -> 0 < dx -> density w <> 0 -> L 1 = 1 ->
  let q := CompleteFromPrim n g w in
  same_state n (PrimitiveReconstruct n g old q (PrimitiveGradient L q q q dx) dt dx ix up) q.
Proof.
  intros n g old L w dt dx ix up H Hx Hr HL q.
  assert (Z : forall x, CentralDifference L ((x - x) / dx) ((x - x) / dx) = 0) by (intros x; rewrite central_exact by exact HL; unfold Rdiv; ring).
  apply same_complete. destruct (prim_rec_spec n old q (PrimitiveGradient L q q q dx) dt dx ix up H ltac:(lra) Hr) as (P1 & P2 & P3 & P4 & P5 & P6).
  set (r := prim_rec n old q (PrimitiveGradient L q q q dx) dt dx ix up) in *. clearbody r. unfold PrimitiveGradient, slope_prim in *. cbn [density velocity pressure species scalars] in P1, P2, P3, P4, P5, P6.
  rewrite !Z in *. repeat split.
  - rewrite P1. cbn. ring.
  - intros d Hd. destruct (Nat.eq_dec d ix) as [->|N]; [rewrite P2|rewrite (P3 d Hd N), Z]; cbn; field; exact Hr.
  - rewrite P4. cbn. ring.
  - intros i. rewrite P5, Z. cbn. field. exact Hr.
  - intros i. rewrite P6, Z. cbn. field. exact Hr.
Qed.
Print Assumptions C117_uniform.

Example C117_example : (forall q t x up, ConservativeReconstruct R unit (fun q _ => q) (fun q _ => q * q / 2) (fun c => c tt) q (fun _ => 0) t x up = q) /\
  ConservativeGradient R unit (fun q _ => q) MinModLimiter 1 2 4 1 tt = 1.
Proof.
  split; [intros q t x up; unfold ConservativeReconstruct; destruct up; unfold Rdiv; ring|].
  unfold ConservativeGradient. rewrite central_minmod. unfold MinMod. destruct (Rlt_dec _ _); unfold Rmax, Rmin; repeat (destruct (Rle_dec _ _)); lra.
Qed.

(** ** C118: no direction is preferred *)

(** Mirroring the four cells of a stencil gives the mirrored flux if the base method has this property. *)
Theorem C118_mirror : forall (F : Type) (opp : F -> F) (base : complete -> complete -> R -> R -> F) n g old ix s0 s1 s2 s3 dt dx,
  (ix < n)%nat -> dx <> 0 -> c_density s1 <> 0 -> c_density s2 <> 0 ->
  (forall l l' r r', same_state n l l' -> same_state n r r' -> base l r dt dx = base l' r' dt dx) ->
  (forall l r, base (mirror ix r) (mirror ix l) dt dx = opp (base l r dt dx)) ->
  let flux := Muscl2 complete prim F (PrimitiveGradient MinModLimiter) (fun q dw t x up => PrimitiveReconstruct n g old q dw t x ix up) base in
  flux (mirror ix s3) (mirror ix s2) (mirror ix s1) (mirror ix s0) dt dx = opp (flux s0 s1 s2 s3 dt dx).
Proof.
  intros F opp base n g old ix s0 s1 s2 s3 dt dx H Hx H1 H2 Hb Hm flux. unfold flux, Muscl2, Muscl2_gradients. rewrite <- Hm.
  apply Hb; [exact (mirror_reconstruct n g old old s1 s2 s3 dt dx ix false H Hx H2)|exact (mirror_reconstruct n g old old s0 s1 s2 dt dx ix true H Hx H1)].
Qed.
Print Assumptions C118_mirror.

(** A base method with this property: the mean of the mass fluxes *)
Example C118_example :
  let base l r (_ _ : R) := (c_momentum l 0%nat + c_momentum r 0%nat) / 2 in
  (forall l l' r r', same_state 1 l l' -> same_state 1 r r' -> base l r 1 1 = base l' r' 1 1) /\
  (forall l r, base (mirror 0 r) (mirror 0 l) 1 1 = - base l r 1 1) /\ mirror 0 (cell 1 2 3) <> cell 1 2 3.
Proof.
  cbn zeta. split; [|split].
  - intros l l' r r' (_ & A & _) (_ & B & _). rewrite A, B by lia. reflexivity.
  - intros l r. cbn. field.
  - intros E. apply (f_equal (fun q => c_momentum q 0%nat)) in E. cbn in E. lra.
Qed.
