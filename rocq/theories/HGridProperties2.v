(** C106: stabilised fluxes and the second time integrator.  C107: uniform flow along the walls. *)
From Coq Require Import List Reals ZArith Bool Lra Lia Psatz FunctionalExtensionality.
From Verif Require Import MdLimiterModel MdLimiterSpec CutCellModel CutCellProofs HGridModel HGridSpec HGridProofs.
Import ListNotations.
Local Open Scope R_scope.

(** ** C106 *)

(** Whatever the number of lanes, every face of a row gets the weighted sum of its three fluxes. *)
Theorem C106_rows : forall w l, (1 <= w)%nat ->
  MyStab_Row w l = Some (map (fun f => my_us f * my_regular f + my_bL f * my_left f + my_bR f * my_right f) l).
Proof. intros w l H. unfold MyStab_Row. apply (run_row_map w _ my_stable); [exact H |]. intros p _ _. reflexivity. Qed.
Print Assumptions C106_rows.

(** If no part of the face is shielded from both sides, the stabilised flux is a mean of the three fluxes. *)
Theorem C106_mean : forall l m r f fL fR lo hi, 0 <= l -> 0 < m -> 0 <= r ->
  let a := fractions_single (l, m, r) in
  ds a = 0 -> lo <= f <= hi -> lo <= fL <= hi -> lo <= fR <= hi ->
  lo <= my_stable (mkMy f fL fR (us_rel a) (ssL_rel a) (ssR_rel a)) <= hi.
Proof.
  intros l m r f fL fR lo hi Hl Hm Hr a D F1 F2 F3.
  destruct (fractions_partition l m r Hl (Rlt_le _ _ Hm) Hr) as (P1 & P2 & P3 & _ & P5). fold a in P1, P2, P3, P5.
  destruct (fractions_rel l m r Hm) as (R1 & R2 & R3 & _). fold a in R1, R2, R3. unfold my_stable. cbn [my_us my_regular my_bL my_left my_bR my_right].
  assert (Q : forall x y, 0 <= x -> m * y = x -> 0 <= y) by (intros x y Hx E; apply (Rmult_le_reg_l m); lra).
  assert (Q1 : 0 <= us_rel a) by (apply (Q (us a)); lra). assert (Q2 : 0 <= ssL_rel a) by (apply (Q (ssL a)); lra). assert (Q3 : 0 <= ssR_rel a) by (apply (Q (ssR a)); lra).
  assert (Q4 : us_rel a + ssL_rel a + ssR_rel a = 1) by (apply (Rmult_eq_reg_l m); lra).
  set (x := us_rel a) in *. set (y := ssL_rel a) in *. set (z := ssR_rel a) in *. clearbody x y z. nra.
Qed.
Print Assumptions C106_mean.

(** The content of n cells changes by what passes the two outer faces and by what passes the walls: the inner faces cancel.
    Cells without volume must not have open faces. *)
Theorem C106_conservation : forall k (beta flux wall alpha old new : Z -> R) lo n,
  (forall j, (lo <= j < lo + Z.of_nat n)%Z ->
     (0 < alpha j \/ (alpha j = 0 /\ beta j = 0 /\ beta (j + 1)%Z = 0))
     /\ update2 k (old j) (flux j) (flux (j + 1)%Z) (wall j) (alpha j) (beta j) (beta (j + 1)%Z) = Some (new j)) ->
  sum_cells (fun j => alpha j * new j) lo n =
  sum_cells (fun j => alpha j * old j) lo n
  + k * (beta lo * flux lo - beta (lo + Z.of_nat n)%Z * flux (lo + Z.of_nat n)%Z
         - sum_cells (fun j => (beta j - beta (j + 1)%Z) * wall j) lo n).
Proof.
  intros k beta flux wall alpha old new lo n. revert lo. induction n as [| n IH]; intros lo H.
  - cbn [sum_cells]. replace (lo + Z.of_nat 0)%Z with lo by lia. ring.
  - cbn [sum_cells]. rewrite (IH (lo + 1)%Z).
    + destruct (H lo) as [P U]; [lia |]. pose proof (update2_content _ _ _ _ _ _ _ _ _ P U) as E. rewrite E.
      replace (lo + 1 + Z.of_nat n)%Z with (lo + Z.of_nat (S n))%Z by lia. ring.
    + intros j Hj. apply H. lia.
Qed.
Print Assumptions C106_conservation.

(** A cell between an open face and a face which is half closed. *)
Example C106_example : let a := fractions_single (1, 1, 1 / 2) in ds a = 0 /\ us_rel a = 1 / 2
  /\ update2 1 5 2 3 4 (3 / 4) 1 (1 / 2) = Some (5 + 1 / (3 / 4) * (1 * 2 - 1 / 2 * 3 - (1 - 1 / 2) * 4)).
Proof.
  intro a. split; [unfold a, fractions_single; cbn [ds]; minmax; lra |]. split.
  - unfold a, fractions_single. cbn [us_rel]. destruct (Rlt_dec 0 1); minmax; lra.
  - unfold update2. destruct (Rlt_dec 0 (3 / 4)); [| lra]. destruct (Req_EM_T 1 (1 / 2)); [lra | reflexivity].
Qed.

(** A cut cell with equal face fractions which is not a part of a channel with this width: the assertion fails.  E.g. a
    wedge between two equally open faces. *)
Theorem C106_wedge_refuted : forall k prev fL fR fB alpha b, 0 < alpha -> alpha <> b -> update2 k prev fL fR fB alpha b b = None.
Proof.
  intros k prev fL fR fB alpha b P N. unfold update2. destruct (Rlt_dec 0 alpha); [| contradiction].
  destruct (Req_EM_T b b); [| congruence]. destruct (Req_EM_T alpha b); [contradiction | reflexivity].
Qed.
Print Assumptions C106_wedge_refuted.

Example C106_wedge_example : 0 < 3 / 4 /\ 3 / 4 <> 1.
Proof. lra. Qed.

(** A face shielded from both sides: the neighbouring faces are half open.  The shielded half has no flux at all, and gas at
    rest with the pressure p, where all fluxes of the momentum are p, is accelerated. *)
Theorem C106_double_refuted : forall k p prev alpha r, 0 < p -> 0 < k -> 0 < alpha -> 1 / 2 <= r ->
  let a := fractions_single (1 / 2, 1, 1 / 2) in
  let a' := fractions_single (1, 1 / 2, r) in
  let f := my_stable (mkMy p p p (us_rel a) (ssL_rel a) (ssR_rel a)) in
  let f' := my_stable (mkMy p p p (us_rel a') (ssL_rel a') (ssR_rel a')) in
  f = p / 2 /\ f' = p /\ exists v, update2 k prev f f' p alpha 1 (1 / 2) = Some v /\ v < prev.
Proof.
  intros k p prev alpha r Hp Hk Ha Hr a a' f f'.
  assert (A : us_rel a = 1 / 2 /\ ssL_rel a = 0 /\ ssR_rel a = 0).
  { unfold a, fractions_single. cbn [us_rel ssL_rel ssR_rel]. destruct (Rlt_dec 0 1); [| lra]. repeat split; minmax; lra. }
  assert (A' : us_rel a' = 1 /\ ssL_rel a' = 0 /\ ssR_rel a' = 0).
  { unfold a', fractions_single. cbn [us_rel ssL_rel ssR_rel]. destruct (Rlt_dec 0 (1 / 2)); [| lra].
    rewrite (Rmax_left 0 (1 / 2 - 1)), (Rmax_left 0 (1 / 2 - r)), (Rmax_left 0 0), (Rmin_left 0 0), (Rmax_right 0 (1 / 2 - 0)) by lra. repeat split; field. }
  destruct A as (A1 & A2 & A3). destruct A' as (B1 & B2 & B3).
  assert (E : f = p / 2) by (unfold f, my_stable; cbn [my_us my_regular my_bL my_left my_bR my_right]; rewrite A1, A2, A3; field).
  assert (E' : f' = p) by (unfold f', my_stable; cbn [my_us my_regular my_bL my_left my_bR my_right]; rewrite B1, B2, B3; ring).
  split; [exact E |]. split; [exact E' |]. rewrite E, E'. unfold update2. destruct (Rlt_dec 0 alpha); [| contradiction].
  destruct (Req_EM_T 1 (1 / 2)); [lra |]. eexists. split; [reflexivity |].
  assert (0 < k / alpha) by (apply Rdiv_lt_0_compat; lra). assert (0 < k / alpha * p) by (apply Rmult_lt_0_compat; lra).
  replace (k / alpha * (1 * (p / 2) - 1 / 2 * p - (1 - 1 / 2) * p)) with (- (1 / 2) * (k / alpha * p)) by (field; lra). lra.
Qed.
Print Assumptions C106_double_refuted.

Example C106_double_example : 0 < 1 /\ 0 < 1 / 10 /\ 0 < 3 / 4 /\ 1 / 2 <= 1.
Proof. lra. Qed.

(** ** C107 *)

(** The stencil holds the same state twice, without slopes. *)
Definition uniform {S K : Type} (u : S) (st : stencil S K) : Prop :=
  left_state _ _ st = u /\ right_state _ _ st = u /\ (forall k, left_slope _ _ st k = 0) /\ (forall k, right_slope _ _ st k = 0).

(** Uniform flow which a reflection at the wall does not change (flow along the wall, gas at rest): all stencils are uniform,
    and so is the reference state at the wall. *)
Theorem C107_stencils : forall S K (extract : S -> K -> R) complete reflect inside c geom shL shR face dx d i parts j ref0 old1 old2 u,
  complete (extract u) = u ->
  (forall j, states _ _ c j = u) -> (forall j k, grad_x _ _ c j k = 0) -> (forall j k, grad_y _ _ c j k = 0) ->
  reflect u (- fst (boundary_normal geom i), - snd (boundary_normal geom i)) = u ->
  parts <> [] -> (forall s, In s parts -> 0 < volume_of s) ->
  (forall s, In s parts -> inside (cell_of s) = true /\ 0 < volume_fraction geom (cell_of s)) ->
  face d i <> face d (next d i) ->
  uniform u (ReconstructRegularStencil S K extract complete c geom shL shR j dx d)
  /\ exists gx gy, IntegrateCellState S K extract complete inside c geom dx parts ref0 = (true, (u, gx, gy)) /\ (forall k, gx k = 0 /\ gy k = 0)
  /\ let eb := ReconstructEmbeddedBoundaryStencil S K extract complete reflect geom face (u, gx, gy) (Centroid parts) i dx d old1 in
     uniform u eb /\ uniform u (ReconstructSinglyShieldedStencil S K extract complete c geom face eb i dx d old2).
Proof.
  intros S K extract complete reflect inside c geom shL shR face dx d i parts jj ref0 old1 old2 u EC Hs Hx Hy Hr Ne Pos Ins Nf.
  assert (V : forall j x, value_at S K extract c geom dx j x = extract u).
  { intros j x. extensionality k. unfold value_at, ApplyGradient. rewrite Hs, Hx, Hy. ring. }
  assert (G : forall j k, grad_dir S K d c j k = 0) by (intros j k; destruct d; [apply Hx | apply Hy]).
  split.
  { unfold uniform, ReconstructRegularStencil. cbv zeta. cbn [left_state right_state left_slope right_slope]. rewrite !V. split; [exact EC |]. split; [exact EC |]. split; intro k; apply G. }
  pose proof (total_positive parts Ne Pos) as TP.
  assert (VP : visited parts = parts).
  { pose proof (visited_all parts []) as H. rewrite app_nil_r in H. apply H; [exact Pos | intros s []]. }
  unfold IntegrateCellState, IntegrateParts. rewrite VP. destruct (Req_EM_T (total volume_of parts) 0) as [E | _]; [lra |].
  replace (forallb _ parts) with true.
  2: { symmetry. apply forallb_forall. intros s Hin. destruct (Ins s Hin) as (H1 & H2). rewrite H1. destruct (Rlt_dec _ _); [reflexivity | contradiction]. }
  assert (Z : forall k, total (fun s => volume_of s / total volume_of parts * grad_x S K c (cell_of s) k) parts = 0).
  { intro k. apply total_zero. intros s _. rewrite Hx. ring. }
  assert (M : (fun k => total (fun s => volume_of s / total volume_of parts * value_at S K extract c geom dx (cell_of s) (point_of s) k) parts) = extract u).
  { extensionality k. rewrite (total_ext _ (fun s => extract u k / total volume_of parts * volume_of s)).
    - rewrite total_scale. field. lra.
    - intros s _. rewrite V. field. lra. }
  rewrite M, EC. do 2 eexists. split; [reflexivity |]. split; [intro k; split; apply Z |].
  set (g0 := fun k => total (fun s => volume_of s / total volume_of parts * grad_x S K c (cell_of s) k) parts) in *.
  assert (G0 : g0 = fun _ => 0) by (extensionality k; apply Z). clearbody g0. subst g0. set (eb := ReconstructEmbeddedBoundaryStencil S K extract complete reflect geom face _ _ i dx d old1).
  assert (Sh : shift d i 1 = next d i) by (destruct d; reflexivity).
  assert (N : GetBoundaryNormal geom i = (- fst (boundary_normal geom i), - snd (boundary_normal geom i))) by (unfold GetBoundaryNormal, vmul; f_equal; ring).
  assert (Ev : forall x0 x, EvalAt S K extract complete (u, fun _ => 0, fun _ => 0) x0 x = u).
  { intros x0 x. unfold EvalAt, ApplyGradient. transitivity (complete (extract u)); [f_equal; extensionality k; ring | exact EC]. }
  assert (U : uniform u eb).
  { unfold eb, ReconstructEmbeddedBoundaryStencil. cbv zeta. rewrite Sh, N, !Ev, Hr. unfold uniform, ApplyGradient.
    destruct (Rlt_dec (face d i) (face d (next d i))); [| destruct (Rlt_dec (face d (next d i)) (face d i)); [| lra]];
      cbn [left_state right_state left_slope right_slope]; (split; [reflexivity |]); (split; [reflexivity |]); split; intro k; try ring; destruct d; reflexivity. }
  split; [exact U |]. destruct U as (U1 & U2 & U3 & U4). clearbody eb.
  assert (C0 : forall q : K -> R, (forall k, q k = extract u k) -> complete q = u).
  { intros q Hq. transitivity (complete (extract u)); [f_equal; extensionality k; apply Hq | exact EC]. }
  unfold ReconstructSinglyShieldedStencil. cbv zeta. rewrite Sh, !V, U1, U2. unfold uniform.
  destruct (Rlt_dec (face d i) (face d (next d i))); [| destruct (Rlt_dec (face d (next d i)) (face d i)); [| lra]];
    cbn [left_state right_state left_slope right_slope]; (split; [apply C0; intro k; rewrite ?U3, ?U4, ?G; ring |]);
    (split; [apply C0; intro k; rewrite ?U3, ?U4, ?G; ring |]); split; intro k; rewrite ?U3, ?U4, ?G; ring.
Qed.
Print Assumptions C107_stencils.

(** Then the cell keeps its value with any flux function: the fluxes at the two faces, computed from their regular and shielded stencils, and
    at the wall balance.  Faces are closed or not shielded from both sides. *)
Theorem C107_balance : forall S K (flux : stencil S K -> K -> R) (u : S) rL sL1 sL2 rR sR1 sR2 w b1 b2 b3 b4 k prev alpha q,
  (forall st st', uniform u st -> uniform u st' -> flux st = flux st') ->
  uniform u rL -> uniform u sL1 -> uniform u sL2 -> uniform u rR -> uniform u sR1 -> uniform u sR2 -> uniform u w ->
  0 <= b1 -> 0 <= b2 -> 0 <= b3 -> 0 <= b4 ->
  let aL := fractions_single (b1, b2, b3) in
  let aR := fractions_single (b2, b3, b4) in
  (b2 = 0 \/ ds aL = 0) -> (b3 = 0 \/ ds aR = 0) -> (b2 = b3 -> alpha = b2) ->
  update2 k prev (my_stable (mkMy (flux rL q) (flux sL1 q) (flux sL2 q) (us_rel aL) (ssL_rel aL) (ssR_rel aL)))
                 (my_stable (mkMy (flux rR q) (flux sR1 q) (flux sR2 q) (us_rel aR) (ssL_rel aR) (ssR_rel aR)))
                 (flux w q) alpha b2 b3 = Some prev.
Proof.
  intros S K flux u rL sL1 sL2 rR sR1 sR2 w b1 b2 b3 b4 k prev alpha q HF U1 U2 U3 U4 U5 U6 U7 P1 P2 P3 P4 aL aR D1 D2 Eq.
  rewrite (HF rL w U1 U7), (HF sL1 w U2 U7), (HF sL2 w U3 U7), (HF rR w U4 U7), (HF sR1 w U5 U7), (HF sR2 w U6 U7). set (f := flux w q). clearbody f.
  assert (B : forall l m r, 0 <= l -> 0 <= m -> 0 <= r -> let a := fractions_single (l, m, r) in (m = 0 \/ ds a = 0) ->
     m * my_stable (mkMy f f f (us_rel a) (ssL_rel a) (ssR_rel a)) = m * f).
  { intros l m r Hl Hm Hr a [-> | D]; [ring |]. destruct (fractions_partition l m r Hl Hm Hr) as (Q1 & Q2 & Q3 & _ & Q5). fold a in Q1, Q2, Q3, Q5.
    destruct (Req_dec m 0) as [-> | Nm]; [ring |].
    destruct (fractions_rel l m r ltac:(lra)) as (R1 & R2 & R3 & _). fold a in R1, R2, R3. unfold my_stable. cbn [my_us my_regular my_bL my_left my_bR my_right].
    replace (m * (us_rel a * f + ssL_rel a * f + ssR_rel a * f)) with ((us_rel a * m + ssL_rel a * m + ssR_rel a * m) * f) by ring. 
    replace (us_rel a * m + ssL_rel a * m + ssR_rel a * m) with m by lra. reflexivity. }
  pose proof (B b1 b2 b3 P1 P2 P3 D1) as B1. pose proof (B b2 b3 b4 P2 P3 P4 D2) as B2. cbv zeta in B1, B2. fold aL in B1. fold aR in B2.
  set (x := my_stable _) in *. clearbody x. set (y := my_stable _) in *. clearbody y.
  unfold update2. destruct (Rlt_dec 0 alpha) as [A | A]; [| reflexivity]. destruct (Req_EM_T b2 b3) as [E | E].
  - rewrite (Eq E). destruct (Req_EM_T b2 b2); [| congruence]. f_equal. rewrite (Eq E) in A. rewrite <- E in B2.
    assert (x = f) by (apply (Rmult_eq_reg_l b2); lra). assert (y = f) by (apply (Rmult_eq_reg_l b2); lra). subst. ring.
  - f_equal. rewrite B1, B2. ring.
Qed.
Print Assumptions C107_balance.

(** Gas with the momentum (0, 7) along a wall with the normal (1, 0). *)
Definition gas_mirror (s : nat -> R) (n : vec) : nat -> R :=
  fun k => match k with
           | 1%nat => s 1%nat - 2 * (s 1%nat * fst n + s 2%nat * snd n) * fst n
           | 2%nat => s 2%nat - 2 * (s 1%nat * fst n + s 2%nat * snd n) * snd n
           | _ => s k
           end.
Example C107_example :
  let u := fun k => match k with 1%nat => 0 | 2%nat => 7 | _ => 1 end in
  let geom := mkGeometry (fun _ => 1 / 2) (fun _ => (1 / 4, 0)) (fun _ => (0, 0)) (fun _ => (Ropp 1, 0)) in
  gas_mirror u (- fst (boundary_normal geom (0, 0)%Z), - snd (boundary_normal geom (0, 0)%Z)) = u
  /\ uniform u (mkStencil (nat -> R) nat u u (fun _ => 0) (fun _ => 0)).
Proof.
  cbv zeta. split; [| repeat split]. extensionality k. unfold gas_mirror. cbn [boundary_normal fst snd].
  destruct k as [| [| [| k]]]; try reflexivity; ring.
Qed.
