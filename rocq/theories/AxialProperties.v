(** C83 and C84: tubes with a varying cross section. *)
From Coq Require Import List ZArith Reals Lia Lra Bool.
From Verif Require Import AxialModel AxialSpec AxialProofs.
Import ListNotations.
Local Open Scope R_scope.

(** ** C83: the conservative update with areas *)

(** The update changes exactly the cells of the tile both of whose faces carry a flux, and only the conserved components.
    The new content of such a cell, [volume * value], is the old content plus what flows in at the left face minus what
    flows out at the right face during dt; the momentum also gets the force of the wall, the mean face pressure times the
    difference of the face areas.  Everything is taken from the values before the call, although the update is in place. *)
Theorem C83_update_cells mom n_cons area p flux dt dx tlo thi flo fhi m : (mom < n_cons)%nat -> 0 < dx ->
  (forall c, 0 < area c + area (c + 1)%Z) ->
  let m' := UpdateConservatively mom n_cons area p flux dt dx (tlo, thi) (flo, fhi) m in
  (forall c k, (tlo <= c < thi)%Z -> (flo <= c)%Z -> (c + 1 < fhi)%Z -> (k < n_cons)%nat ->
     volume area dx c * m' c k =
     volume area dx c * m c k + dt * (area c * flux c k - area (c + 1)%Z * flux (c + 1)%Z k) +
     (if Nat.eqb k mom then dt * ((area (c + 1)%Z - area c) * ((p c + p (c + 1)%Z) / 2)) else 0)) /\
  (forall c k, ~ ((tlo <= c < thi)%Z /\ (flo <= c)%Z /\ (c + 1 < fhi)%Z /\ (k < n_cons)%nat) -> m' c k = m c k).
Proof.
  intros Hmom Hdx Ha m'. unfold m', UpdateConservatively, cell_box. cbn [fst snd]. split.
  - intros c k H1 H2 H3 Hk. rewrite loop_in by (try assumption; try apply between_NoDup; apply between_in; lia).
    unfold new_value, volume, ooA. specialize (Ha c). destruct (Nat.eqb k mom); field; lra.
  - intros c k H. apply loop_out; [exact Hmom|].
    destruct (Nat.lt_ge_cases k n_cons) as [L|L]; [left|right; exact L]. rewrite between_in. lia.
Qed.
Print Assumptions C83_update_cells.

(** The total over n neighbouring cells changes only by what flows through the two outer faces, for every choice of areas and
    fluxes; the momentum changes in addition by the forces of the wall. *)
Theorem C83_conserves mom n_cons area p flux dt dx lo n tlo thi flo fhi m k : (mom < n_cons)%nat -> (k < n_cons)%nat -> 0 < dx ->
  (forall c, 0 < area c + area (c + 1)%Z) ->
  (tlo <= lo)%Z -> (flo <= lo)%Z -> (lo + Z.of_nat n <= thi)%Z -> (lo + Z.of_nat n < fhi)%Z ->
  let m' := UpdateConservatively mom n_cons area p flux dt dx (tlo, thi) (flo, fhi) m in
  let hi := (lo + Z.of_nat n)%Z in
  let total (v : cells) := sum_from lo n (fun c => volume area dx c * v c k) in
  let force := sum_from lo n (fun c => (area (c + 1)%Z - area c) * ((p c + p (c + 1)%Z) / 2)) in
  total m' = total m + dt * (area lo * flux lo k - area hi * flux hi k) + (if Nat.eqb k mom then dt * force else 0).
Proof.
  intros Hmom Hk Hdx Ha H1 H2 H3 H4 m' hi total force.
  pose proof (C83_update_cells mom n_cons area p flux dt dx tlo thi flo fhi m Hmom Hdx Ha) as [U _]. fold m' in U.
  unfold total. rewrite (sum_from_ext _ _ _ (fun c => (volume area dx c * m c k +
    dt * (area c * flux c k - area (c + 1)%Z * flux (c + 1)%Z k)) +
    (if Nat.eqb k mom then dt else 0) * ((area (c + 1)%Z - area c) * ((p c + p (c + 1)%Z) / 2)))).
  2:{ intros c Hc. rewrite U by (try assumption; lia). destruct (Nat.eqb k mom); ring. }
  rewrite sum_from_plus, sum_from_plus, !sum_from_scale. rewrite (sum_from_telescope lo n (fun c => area c * flux c k)). fold hi force.
  destruct (Nat.eqb k mom); ring.
Qed.
Print Assumptions C83_conserves.

(** Gas at rest with the same pressure everywhere stays as it is, however the cross section varies: if the momentum flux is
    the pressure and nothing else flows, no value changes. *)
Theorem C83_at_rest mom n_cons area flux dt dx tile flux_box P m : (mom < n_cons)%nat -> 0 < dx ->
  (forall c, 0 < area c + area (c + 1)%Z) ->
  (forall c k, flux c k = if Nat.eqb k mom then P else 0) ->
  forall c k, UpdateConservatively mom n_cons area (fun _ => P) flux dt dx tile flux_box m c k = m c k.
Proof.
  intros Hmom Hdx Ha Hf c k. unfold UpdateConservatively. set (cs := between _ _).
  destruct (in_dec Z.eq_dec c cs) as [I|I]; [|apply loop_out; [exact Hmom|left; exact I]].
  destruct (Nat.lt_ge_cases k n_cons) as [L|L]; [|apply loop_out; [exact Hmom|right; exact L]].
  rewrite loop_in by (try assumption; apply between_NoDup). unfold new_value, ooA. rewrite !Hf. specialize (Ha c).
  destruct (Nat.eqb k mom); field; lra.
Qed.
Print Assumptions C83_at_rest.

(** The areas used in an update are never out of date: after every history of updates, changes of the grid (which may also
    add or remove levels) and copies of the integrator, the areas used by an update of a level with at least one box belong to
    the present boxes, and are the user's function at the position of the faces of that level. *)
Theorem C83_areas A geoms events level :
  let s := fold_left (axial_step A geoms) events ([], []) in
  let layout_now := nth level (fst s) (mkLayout [] [] 0) in
  let used := nth level (snd (axial_step A geoms s (Update level))) empty_fab in
  (level < length (fst s))%nat -> boxes layout_now <> [] ->
  fab_layout used = layout_now /\
  forall i, fab_values used i = A (prob_lo (nth level geoms (mkGeometry 0 0)) + cell_size (nth level geoms (mkGeometry 0 0)) * IZR i).
Proof.
  intros s layout_now used Hl Hb. assert (fab_layout used = layout_now) as E by (apply recompute_layout; exact Hl).
  split; [exact E|].
  assert (right_areas A geoms (snd (axial_step A geoms s (Update level)))) as H.
  { apply recompute_right. apply history_right. intros j. left. destruct j; reflexivity. }
  destruct (H level) as [N|N]; [|exact N].
  exfalso. apply Hb. rewrite <- E. unfold used. rewrite N. reflexivity.
Qed.
Print Assumptions C83_areas.

(** A nozzle with areas 1, 2, 3, 4, .. , mass (component 0) and momentum (component 1). *)
Example C83_example :
  let area := fun c => IZR (Z.max 1 (c + 1)) in
  let flux := (fun c k => IZR c + INR k) : cells in
  let m' := UpdateConservatively 1 2 area (fun c => IZR c) flux 1 1 (0, 5)%Z (0, 4)%Z (fun _ _ => 1) in
  (forall c, 0 < area c + area (c + 1)%Z) /\
  m' 0%Z 0%nat = 1 - 2 / (3 / 2) /\ m' 0%Z 1%nat = 1 + (1 - 4 + 1 / 2) / (3 / 2) /\ m' 3%Z 0%nat = 1.
Proof.
  intros area flux m'.
  assert (forall c, 0 < area c + area (c + 1)%Z) as Ha.
  { intros c. unfold area. rewrite <- plus_IZR. apply IZR_lt. lia. }
  pose proof (C83_update_cells 1 2 area (fun c => IZR c) flux 1 1 0 5 0 4 (fun _ _ => 1) (le_n 2) Rlt_0_1 Ha) as [U O]. fold m' in U, O.
  split; [exact Ha|]. split; [|split].
  - specialize (U 0%Z 0%nat ltac:(lia) ltac:(lia) ltac:(lia) ltac:(lia)). 
    unfold volume, area, flux in U. change (Z.max 1 (0 + 1)) with 1%Z in U. change (Z.max 1 (0 + 1 + 1)) with 2%Z in U.
    change (0 + 1)%Z with 1%Z in U. cbn [Nat.eqb INR] in U. lra.
  - specialize (U 0%Z 1%nat ltac:(lia) ltac:(lia) ltac:(lia) ltac:(lia)). 
    unfold volume, area, flux in U. change (Z.max 1 (0 + 1)) with 1%Z in U. change (Z.max 1 (0 + 1 + 1)) with 2%Z in U.
    change (0 + 1)%Z with 1%Z in U. cbn [Nat.eqb INR] in U. lra.
  - apply O. lia.
Qed.

(** A regrid between two updates. *)
Example C83_areas_example :
  let g := [mkGeometry 0 1; mkGeometry 0 (1 / 2)] in
  let l1 := [mkLayout [(0, 5)%Z] [0%nat] 1] in
  let l2 := [mkLayout [(0, 5)%Z] [0%nat] 1; mkLayout [(2, 7)%Z] [0%nat] 1] in
  let events := [Allocate l1; Update 0; CopyIntegrator; Update 0; Allocate l2] in
  let s := fold_left (axial_step (fun x => 1 + x) g) events ([], []) in
  (1 < length (fst s))%nat /\ boxes (nth 1 (fst s) (mkLayout [] [] 0)) = [(2, 7)%Z] /\
  fab_values (nth 1 (snd (axial_step (fun x => 1 + x) g s (Update 1))) empty_fab) 4%Z = 3.
Proof.
  intros g l1 l2 events s.
  assert (1 < length (fst s))%nat as L by (vm_compute; lia).
  split; [exact L|]. split; [reflexivity|].
  destruct (C83_areas (fun x => 1 + x) g events 1 L) as [_ V]; [vm_compute; discriminate|].
  fold s in V. rewrite V. unfold g. cbn. lra.
Qed.

(** ** C84: the source term for a varying cross section *)

(** The source term leaves the velocity alone and solves d rho/dt = - rho u A'/A, dp/dt = - gamma p u A'/A, with the value A
    and the slope A' of the given function, without any error in time: positive density and temperature, the entropy does
    not change, and two steps of lengths s and t are the same as one step of length s + t.  There is no limit for dt. *)
Theorem C84_exact_flow diameter x dx q : 0 < density q -> 0 < pressure q -> 1 < gamma q -> 0 < c_p q ->
  let A := fst (diameters diameter x dx) in
  let dAdx := snd (diameters diameter x dx) in
  let rate := velocity q * dAdx / A in
  let Rs := c_p q - c_p q / gamma q in
  let rho t := fst (fst (axial_source A dAdx t q)) in
  let T t := snd (axial_source A dAdx t q) in
  let p t := rho t * Rs * T t in
  decays (- rate) rho /\ decays (- (gamma q * rate)) p /\ rho 0 = density q /\ p 0 = pressure q /\
  (forall t, snd (fst (axial_source A dAdx t q)) = velocity q /\ 0 < rho t /\ 0 < T t /\
     adiabatic (gamma q) (density q) (pressure q) (rho t) (p t)) /\
  (forall s t, axial_source A dAdx t (mkGas (rho s) (velocity q) (p s) (gamma q) (c_p q)) = axial_source A dAdx (s + t) q).
Proof.
  intros Hr Hp Hg Hc A dAdx rate Rs rho T p.
  assert (0 < Rs) as HR.
  { unfold Rs. replace (c_p q - c_p q / gamma q) with (c_p q * ((gamma q - 1) / gamma q)) by (field; lra).
    apply Rmult_lt_0_compat; [exact Hc|]. apply Rdiv_lt_0_compat; lra. }
  assert (forall t, rho t = density q * exp (- rate * t)) as Er by reflexivity.
  assert (forall t, 0 < rho t) as Pr by (intros t; rewrite Er; apply Rmult_lt_0_compat; [exact Hr|apply exp_pos]).
  assert (forall t, T t = pressure q * exp (- gamma q * rate * t) / (Rs * rho t)) as ET by reflexivity.
  assert (forall t, p t = pressure q * exp (- gamma q * rate * t)) as Ep.
  { intros t. unfold p. rewrite ET. specialize (Pr t). field. split; lra. }
  split; [|split; [|split; [|split; [|split]]]].
  - intros t. rewrite Er. unfold rho. apply (exp_decays rate (density q) t).
  - intros t. rewrite Ep.
    apply derivable_pt_lim_ext with (f := fun t => pressure q * exp (- (gamma q * rate) * t)).
    + intros z. rewrite Ep. do 2 f_equal. ring.
    + replace (- gamma q * rate * t) with (- (gamma q * rate) * t) by ring. apply (exp_decays (gamma q * rate) (pressure q) t).
  - rewrite Er, Rmult_0_r, exp_0. ring.
  - rewrite Ep, Rmult_0_r, exp_0. ring.
  - intros t. split; [reflexivity|]. split; [apply Pr|]. split.
    + rewrite ET. apply Rdiv_lt_0_compat; [apply Rmult_lt_0_compat; [exact Hp|apply exp_pos]|apply Rmult_lt_0_compat; [exact HR|apply Pr]].
    + rewrite Er, Ep. apply adiabatic_exp. exact Hr.
  - intros s t. unfold axial_source. cbn [density velocity pressure gamma c_p]. fold rate. fold Rs.
    assert (rho s * exp (- rate * t) = density q * exp (- rate * (s + t))) as E1.
    { rewrite Er, Rmult_assoc, <- exp_plus. do 2 f_equal. ring. }
    assert (p s * exp (- gamma q * rate * t) = pressure q * exp (- gamma q * rate * (s + t))) as E2.
    { rewrite Ep, Rmult_assoc, <- exp_plus. do 2 f_equal. ring. }
    rewrite E1, E2. reflexivity.
Qed.
Print Assumptions C84_exact_flow.

(** In a tube of constant cross section and for gas at rest nothing changes. *)
Theorem C84_no_source diameter x dx dt q : 0 < density q -> 1 < gamma q -> 0 < c_p q -> 0 < dx ->
  (forall y, diameter y = diameter x) \/ velocity q = 0 ->
  axial_source (fst (diameters diameter x dx)) (snd (diameters diameter x dx)) dt q =
  (density q, velocity q, pressure q / ((c_p q - c_p q / gamma q) * density q)).
Proof.
  intros Hr Hg Hc Hdx H. unfold axial_source, diameters. cbn [fst snd].
  assert (velocity q * ((diameter (x + dx) - diameter x) / dx) / diameter (x + 1 / 2 * dx) = 0) as ->.
  { destruct H as [H| ->]; [rewrite (H (x + dx))|]; unfold Rdiv; ring. }
  rewrite !Ropp_0, Rmult_0_r, !Rmult_0_l, exp_0, !Rmult_1_r. reflexivity.
Qed.
Print Assumptions C84_no_source.

(** The source term is called with the diameter of the tube, as its parameter is named and as the example program does.  It
    uses D'/D for A'/A: in a round tube A'/A is twice as large.  For a cone of diameter x at x >= 0 the rate of change of the
    density is only half of what the cross section demands, for every position and every cell size. *)
Theorem C84_round_tube_refuted x dx : 0 <= x -> 0 < dx ->
  let D := fun y : R => y in
  let q := mkGas 1 1 1 (7 / 5) 1000 in
  let A := fst (diameters D x dx) in let dAdx := snd (diameters D x dx) in
  let face := x + 1 / 2 * dx in
  exists slope, derivable_pt_lim (round_area D) face slope /\
    derivable_pt_lim (fun t => fst (fst (axial_source A dAdx t q))) 0 (- (1 / 2) * (slope / round_area D face)) /\
    slope / round_area D face <> 0.
Proof.
  intros Hx Hdx D q A dAdx face. assert (0 < face) as Hf by (unfold face; lra).
  exists (PI / 4 * (1 * face + face * 1)). split; [|split].
  - unfold round_area. apply (derivable_pt_lim_scal (fun y => D y * D y) (PI / 4) face).
    apply (derivable_pt_lim_mult D D face 1 1); apply derivable_pt_lim_id.
  - assert (forall t, fst (fst (axial_source A dAdx t q)) = 1 * exp (- (1 * dAdx / A) * t)) as E by reflexivity.
    replace (- (1 / 2) * (PI / 4 * (1 * face + face * 1) / round_area D face)) with (- (1 * dAdx / A) * (1 * exp (- (1 * dAdx / A) * 0))).
    + apply (exp_decays (1 * dAdx / A) 1 0).
    + rewrite Rmult_0_r, exp_0. unfold round_area, A, dAdx, diameters, D. cbn [fst snd]. fold face. pose proof PI_RGT_0. field. repeat split; try lra.
  - unfold round_area, D. pose proof PI_RGT_0. intros E.
    assert (PI / 4 * (1 * face + face * 1) / (PI / 4 * (face * face)) = 2 / face) as E2 by (field; lra).
    rewrite E2 in E. assert (0 < 2 / face) by (apply Rdiv_lt_0_compat; lra). lra.
Qed.
Print Assumptions C84_round_tube_refuted.

(** Gas flowing into a widening tube gets thinner. *)
Example C84_example :
  let D := fun y : R => 1 + y in
  let q := mkGas 1 100 101325 (7 / 5) 1000 in
  let r := axial_source (fst (diameters D 0 1)) (snd (diameters D 0 1)) 1 q in
  0 < density q /\ 0 < pressure q /\ 1 < gamma q /\ 0 < c_p q /\ 0 < fst (fst r) < 1 /\ snd (fst r) = 100.
Proof.
  intros D q r. unfold q. cbn [density pressure gamma c_p]. repeat split; try lra.
  - unfold r, axial_source. cbn [fst snd density]. rewrite Rmult_1_l. apply exp_pos.
  - unfold r, axial_source, diameters, D, q. cbn [fst snd density velocity]. rewrite Rmult_1_l.
    apply Rlt_le_trans with (exp 0); [apply exp_increasing|rewrite exp_0; lra].
    replace (- (100 * ((1 + (0 + 1) - (1 + 0)) / 1) / (1 + (0 + 1 / 2 * 1))) * 1) with (- (200 / 3)) by field. lra.
Qed.
