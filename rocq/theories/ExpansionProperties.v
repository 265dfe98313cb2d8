(** C92 - C94: states of gas dynamics at shocks and boundaries. *)
From Coq Require Import List Reals Bool Lra Lia.
From Verif Require Import GasModel ExpansionModel ExpansionSpec ExpansionProofs ExpansionProofs2 ExpansionProofs3 ExpansionProofs4.
Import ListNotations.
Local Open Scope R_scope.

(** A state of the perfect gas whose speed of sound belongs to its density and pressure. *)
Definition sound_state (g : R) (q : Complete) : Prop :=
  0 < density q /\ 0 < pressure q /\ 0 < speed_of_sound q /\ speed_of_sound q * speed_of_sound q = g * pressure q / density q.

(** A state of the mixture: the speed of sound and the energy belong to density, velocity and pressure. *)
Definition mix_state (g : R) (q : mix) : Prop :=
  0 < x_density q /\ 0 < x_pressure q /\ x_speed_of_sound q * x_speed_of_sound q = g * x_pressure q / x_density q /\
  x_momentum q <> [] /\ x_energy q = total_energy g (x_density q) (velocity_x q) (x_pressure q).

(** ** C92 *)

(** The two states of the initial data of a shock satisfy the jump conditions for the requested speed of the shock exactly if the given
    state flows in the direction of the normal (or is at rest). *)
Theorem C92_jump_conditions : forall (eq : gas) (q : Complete) M_S n,
  1 < gamma eq -> sound_state (gamma eq) q -> unit_vector n -> length (momentum q) = length n -> M_S <> Machnumber q ->
  let pre := ComputePreShockState eq q M_S n in
  (rankine_hugoniot (gamma eq) n (M_S * speed_of_sound q) (density pre) (velocity_of pre) (pressure pre)
                    (density q) (velocity_of q) (pressure q)
   <-> velocity_of q = vscale (sqrt (sprod (velocity_of q) (velocity_of q))) n).
Proof.
  intros eq q M_S n Hg [Hr [Hp [Hc Hc2]]] Hn HL HM pre. rewrite <- squaredNorm_sprod. fold (norm (velocity_of q)). split.
  - apply shock_backward; assumption.
  - apply shock_forward; assumption.
Qed.
Print Assumptions C92_jump_conditions.

(** gas at rest, shock with Mach number 2 *)
Example C92_example :
  let q := mkComplete 1 [0; 0] 2 2 2 in
  1 < gamma (mkGas 2 1 1) /\ sound_state 2 q /\ unit_vector [0; 1] /\ 2 <> Machnumber q /\
  velocity_of q = vscale (sqrt (sprod (velocity_of q) (velocity_of q))) [0; 1].
Proof.
  assert (Z0 : 0 / 1 = 0) by field.
  assert (V : velocity_of (mkComplete 1 [0; 0] 2 2 2) = [0; 0]) by (unfold velocity_of; cbn [density momentum map]; rewrite Z0; reflexivity).
  assert (N : sqrt (sprod [0; 0] [0; 0]) = 0) by (cbn [sprod]; replace (0 * 0 + (0 * 0 + 0)) with 0 by ring; apply sqrt_0).
  cbv zeta. rewrite V, N. unfold Machnumber, norm. rewrite V, squaredNorm_sprod, N.
  unfold sound_state, unit_vector, vscale. cbn [gamma density pressure speed_of_sound map sprod].
  split; [lra|]. split; [repeat split; lra|]. split; [lra|]. split; [lra|]. rewrite !Rmult_0_l. reflexivity.
Qed.

(** The returned gas is denser and has a higher pressure exactly if the shock is supersonic relative to the given state, and its pressure
    is positive exactly above a limit below the speed of sound: for a shock with (almost) the speed of the gas it is not. *)
Theorem C92_compression : forall (eq : gas) (q : Complete) M_S n,
  1 < gamma eq -> sound_state (gamma eq) q -> M_S <> Machnumber q ->
  let pre := ComputePreShockState eq q M_S n in
  let M2 := (Machnumber q - M_S) * (Machnumber q - M_S) in
  (density q < density pre <-> 1 < M2) /\ (pressure q < pressure pre <-> 1 < M2) /\
  (0 < pressure pre <-> (gamma eq - 1) / (2 * gamma eq) < M2).
Proof. intros eq q M_S n Hg [Hr [Hp [Hc Hc2]]] HM. apply shock_compression; assumption. Qed.
Print Assumptions C92_compression.

(** A gas that flows against the normal never satisfies the jump conditions with the returned state. *)
Theorem C92_head_on_refuted : forall (eq : gas) (q : Complete) M_S n v,
  1 < gamma eq -> sound_state (gamma eq) q -> unit_vector n -> length (momentum q) = length n -> M_S <> Machnumber q ->
  v < 0 -> velocity_of q = vscale v n ->
  let pre := ComputePreShockState eq q M_S n in
  ~ rankine_hugoniot (gamma eq) n (M_S * speed_of_sound q) (density pre) (velocity_of pre) (pressure pre)
                     (density q) (velocity_of q) (pressure q).
Proof.
  intros eq q M_S n v Hg Hq Hn HL HM Hv E pre C.
  apply (C92_jump_conditions eq q M_S n Hg Hq Hn HL HM) in C.
  assert (A : sprod (velocity_of q) n = v) by (rewrite E, sprod_scale_l; unfold unit_vector in Hn; rewrite Hn; ring).
  rewrite C, sprod_scale_l in A. unfold unit_vector in Hn. rewrite Hn in A.
  generalize (sqrt_pos (sprod (velocity_of q) (velocity_of q))). lra.
Qed.
Print Assumptions C92_head_on_refuted.

Example C92_head_on_example :
  let q := mkComplete 1 [Ropp 1] (5 / 2) 2 2 in sound_state 2 q /\ unit_vector [1] /\ velocity_of q = vscale (Ropp 1) [1] /\ 2 <> Machnumber q.
Proof.
  cbv zeta. assert (V : velocity_of (mkComplete 1 [Ropp 1] (5 / 2) 2 2) = [Ropp 1]) by (unfold velocity_of; cbn [density momentum map]; f_equal; field).
  assert (N : norm [Ropp 1] = 1).
  { unfold norm, squaredNorm. cbn [dot]. replace (Ropp 1 * Ropp 1 + 0) with 1 by ring. apply sqrt_1. }
  unfold Machnumber. rewrite V, N. unfold sound_state, unit_vector, vscale. cbn [density pressure speed_of_sound map sprod].
  split; [repeat split; lra|]. split; [lra|]. split; [f_equal; ring | lra].
Qed.

(** ** C93 *)

(** Setting the pressure of a mixture isentropically: for every new pressure the entropy is kept, the energy and the speed of sound belong to
    the new state, and the total enthalpy is kept exactly up to the stagnation pressure. *)
Theorem C93_set_pressure : forall g q pn, 1 < g -> mix_state g q -> 0 < pn ->
  let q' := SetIsentropicPressure g q pn in
  x_pressure q' = pn /\ mix_state g q' /\
  same_entropy g (x_density q) (x_pressure q) (x_density q') (x_pressure q') /\
  (stagnation_enthalpy g (x_density q') (velocity_x q') (x_pressure q') = stagnation_enthalpy g (x_density q) (velocity_x q) (x_pressure q)
   <-> pn <= stagnation_pressure g (x_density q) (velocity_x q) (x_pressure q)).
Proof.
  intros g q pn Hg [Hr [Hp [Hc [Hm HE]]]] Hn q'.
  assert (I : 0 < iso g (x_density q) (x_pressure q) pn) by (apply iso_pos; exact Hr).
  assert (V := sip_velocity g q pn Hg Hr Hp Hc Hn). fold q' in V.
  assert (E := sip_eq g q pn Hg Hr Hp Hc Hn). cbv zeta in E. fold q' in E. rewrite <- V in E.
  assert (X1 : x_density q' = iso g (x_density q) (x_pressure q) pn) by (rewrite E; reflexivity).
  assert (X2 : x_pressure q' = pn) by (rewrite E; reflexivity).
  assert (X3 : x_energy q' = total_energy g (x_density q') (velocity_x q') (x_pressure q')) by (rewrite X1, X2; rewrite E at 1; reflexivity).
  assert (X4 : x_speed_of_sound q' = sqrt (g * pn / x_density q')) by (rewrite X1; rewrite E at 1; reflexivity).
  split; [exact X2|]. split; [|split].
  - unfold mix_state. rewrite X1, X2 in *. split; [exact I|]. split; [exact Hn|]. split.
    + rewrite X4. apply sqrt_sqrt. left. apply Rdiv_lt_0_compat; [apply Rmult_lt_0_compat; lra | exact I].
    + split; [|exact X3]. rewrite E. cbn [x_momentum]. rewrite V. unfold velocity_x. destruct (x_momentum q); [congruence | discriminate].
  - rewrite X1, X2. apply iso_entropy; assumption.
  - rewrite X1, X2. rewrite (u2_stagnation g q pn Hg Hr Hp).
    rewrite <- (u2_nonneg g q pn Hg Hr Hp Hn). unfold stagnation_enthalpy. rewrite V.
    rewrite first_zeros by (apply velocity_nonempty; exact Hm). rewrite sgn_sqrt_sqr.
    set (u2 := 2 * (g / (g - 1)) * _). split; intro H.
    + assert (A : Rabs u2 = u2) by lra. generalize (Rabs_pos u2). lra.
    + rewrite Rabs_pos_eq by exact H. reflexivity.
Qed.
Print Assumptions C93_set_pressure.

Definition mix_sample : mix := mkMix 1 [Ropp 1; 0] (5 / 2) [1] 2 2.
Example C93_example : 1 < 2 /\ mix_state 2 mix_sample /\ 0 < 1 < x_pressure mix_sample.
Proof.
  unfold mix_state, total_energy, velocity_x, mix_sample. cbn [x_density x_pressure x_speed_of_sound x_momentum x_energy map sprod].
  repeat split; try lra. discriminate.
Qed.

(** The velocity does not keep its direction: all components but the first are lost, and setting the pressure that the gas already has
    turns every velocity into the positive first direction. *)
Theorem C93_set_pressure_direction_refuted : forall g q pn, 1 < g -> mix_state g q -> 0 < pn ->
  (forall i, (0 < i)%nat -> nth i (velocity_x (SetIsentropicPressure g q pn)) 0 = 0) /\
  nth 0 (velocity_x (SetIsentropicPressure g q (x_pressure q))) 0 = sqrt (sprod (velocity_x q) (velocity_x q)).
Proof.
  intros g q pn Hg [Hr [Hp [Hc [Hm HE]]]] Hn. split.
  - intros [|i] Hi; [lia|]. rewrite (sip_velocity g q pn Hg Hr Hp Hc Hn).
    destruct (velocity_x q) as [|x v]; [reflexivity|]. cbn [zeros map set_first nth].
    change 0 with ((fun _ : R => 0) 0) at 2. rewrite map_nth. reflexivity.
  - rewrite (sip_velocity g q (x_pressure q) Hg Hr Hp Hc Hp).
    assert (S := u2_stagnation g q (x_pressure q) Hg Hr Hp).
    assert (N := proj2 (u2_nonneg g q (x_pressure q) Hg Hr Hp Hp)).
    set (u2 := 2 * (g / (g - 1)) * _) in *.
    rewrite iso_same in S by exact Hp. unfold stagnation_enthalpy in S.
    assert (U : u2 = sprod (velocity_x q) (velocity_x q)) by lra.
    assert (P : 0 <= u2) by (rewrite U; apply sprod_nonneg).
    destruct (velocity_x q) as [|x v] eqn:EV.
    + exfalso. apply (velocity_nonempty q Hm). exact EV.
    + cbn [zeros map set_first nth]. rewrite Rabs_pos_eq by exact P. rewrite <- U.
      destruct (Rle_lt_or_eq_dec 0 u2 P) as [L|Z]; [rewrite sgn_pos by exact L; ring|].
      rewrite <- Z, sgn_zero, sqrt_0. ring.
Qed.
Print Assumptions C93_set_pressure_direction_refuted.

(** The partial densities stay although the density changes: every mass fraction that is not zero is changed. *)
Theorem C93_species_refuted : forall g q pn i, 1 < g -> mix_state g q -> 0 < pn -> pn <> x_pressure q -> nth i (x_species q) 0 <> 0 ->
  let q' := SetIsentropicPressure g q pn in
  nth i (x_species q') 0 / x_density q' <> nth i (x_species q) 0 / x_density q.
Proof.
  intros g q pn i Hg [Hr [Hp [Hc [Hm HE]]]] Hn H Hs q'.
  assert (E := sip_eq g q pn Hg Hr Hp Hc Hn). cbv zeta in E. fold q' in E. rewrite E. cbn [x_species x_density].
  assert (N := iso_neq g (x_density q) (x_pressure q) pn Hg Hr Hp Hn H).
  assert (I : 0 < iso g (x_density q) (x_pressure q) pn) by (apply iso_pos; exact Hr).
  intro C. apply N. apply Rmult_eq_reg_l with (nth i (x_species q) 0); [|exact Hs].
  assert (A : forall x a b, 0 < a -> 0 < b -> x / a = x / b -> x * a = x * b).
  { intros x a b Ha Hb HH. replace (x * a) with (x / b * (a * b)) by (field; lra). rewrite <- HH. field. lra. }
  apply A; [exact I | exact Hr | exact C].
Qed.
Print Assumptions C93_species_refuted.

(** Expansion through the generic function: for every efficiency the gas is not accelerated, it flows in the positive first direction, and
    its energy exceeds the energy that belongs to its pressure and velocity by the enthalpy that the expansion sets free. *)
Theorem C93_energy_counted_twice_refuted : forall g q pn efficiency, 1 < g -> mix_state g q -> 0 < pn < x_pressure q ->
  let q' := IsentropicExpansion g q pn efficiency in
  let gain := enthalpy g (x_density q) (x_pressure q) - enthalpy g (x_density q') (x_pressure q') in
  x_pressure q' = pn /\ same_entropy g (x_density q) (x_pressure q) (x_density q') pn /\
  velocity_x q' = sqrt (sprod (velocity_x q) (velocity_x q)) :: map (fun _ => 0) (tl (velocity_x q)) /\
  0 < gain /\ x_energy q' = total_energy g (x_density q') (velocity_x q') pn + x_density q' * gain.
Proof.
  intros g q pn eta Hg [Hr [Hp [Hc [Hm HE]]]] [Hn Hlt] q'.
  assert (E := expansion_eq g q pn Hg Hr Hp Hc Hm Hn HE eta Hlt). cbv zeta in E. fold q' in E.
  assert (I : 0 < iso g (x_density q) (x_pressure q) pn) by (apply iso_pos; exact Hr).
  assert (V : velocity_x q' = set_first (norm (velocity_x q)) (zeros (x_momentum q))).
  { rewrite E. unfold velocity_x at 1. cbn [x_density x_momentum]. apply vscale_div. lra. }
  rewrite <- V in E.
  assert (X1 : x_density q' = iso g (x_density q) (x_pressure q) pn) by (rewrite E; reflexivity).
  assert (X2 : x_pressure q' = pn) by (rewrite E; reflexivity).
  cbv zeta. rewrite X1, X2. split; [reflexivity|]. split; [apply iso_entropy; assumption|]. split; [|split].
  - rewrite V, <- squaredNorm_sprod. fold (norm (velocity_x q)).
    assert (ZV : zeros (x_momentum q) = zeros (velocity_x q)) by (unfold velocity_x; symmetry; apply zeros_map). rewrite ZV.
    generalize (velocity_nonempty q Hm). destruct (velocity_x q) as [|x v]; [congruence|]. reflexivity.
  - apply (dh_pos g q pn Hg Hr Hp Hn Hlt).
  - rewrite E at 1. reflexivity.
Qed.
Print Assumptions C93_energy_counted_twice_refuted.

(** Expansion at the embedded boundary condition: for every efficiency the gas is not accelerated at all, so it loses total enthalpy, and
    a flow against the first direction is turned around. *)
Theorem C93_no_acceleration_refuted : forall g q pn efficiency, 1 < g -> mix_state g q -> 0 < pn < x_pressure q ->
  let q' := ExpandState g q pn efficiency in
  x_pressure q' = pn /\ same_entropy g (x_density q) (x_pressure q) (x_density q') pn /\
  x_energy q' = total_energy g (x_density q') (velocity_x q') pn /\
  velocity_x q' = Rabs (hd 0 (velocity_x q)) :: tl (velocity_x q) /\
  stagnation_enthalpy g (x_density q') (velocity_x q') pn < stagnation_enthalpy g (x_density q) (velocity_x q) (x_pressure q).
Proof.
  intros g q pn eta Hg [Hr [Hp [Hc [Hm HE]]]] [Hn Hlt] q'.
  assert (E := expand_eq g q pn Hg Hr Hp Hc Hm Hn HE eta Hlt). cbv zeta in E. fold q' in E.
  assert (I : 0 < iso g (x_density q) (x_pressure q) pn) by (apply iso_pos; exact Hr).
  assert (V : velocity_x q' = set_first (Rabs (nth 0 (velocity_x q) 0)) (velocity_x q)).
  { rewrite E. unfold velocity_x at 1. cbn [x_density x_momentum]. apply vscale_div. lra. }
  rewrite <- V in E.
  assert (X1 : x_density q' = iso g (x_density q) (x_pressure q) pn) by (rewrite E; reflexivity).
  assert (X2 : x_pressure q' = pn) by (rewrite E; reflexivity).
  rewrite X1, X2. split; [reflexivity|]. split; [apply iso_entropy; assumption|]. split; [|split].
  - rewrite E at 1. reflexivity.
  - rewrite V. generalize (velocity_nonempty q Hm). destruct (velocity_x q) as [|x v]; [congruence|]. reflexivity.
  - unfold stagnation_enthalpy. rewrite V, sprod_abs_first. generalize (dh_pos g q pn Hg Hr Hp Hn Hlt). lra.
Qed.
Print Assumptions C93_no_acceleration_refuted.

(** Outflow of a mixture through the upper boundary into a lower pressure: the velocity stays positive and gains the part given by the
    efficiency of the enthalpy that is set free; without losses the total enthalpy is kept. *)
Theorem C93_mixture_outflow : forall efficiency u h_before h_after, 0 <= efficiency -> 0 <= u -> h_after < h_before ->
  let u' := border_velocity efficiency u h_before h_after in
  0 <= u' /\ u' * u' / 2 = u * u / 2 + efficiency * (h_before - h_after) /\
  (efficiency = 1 -> h_after + u' * u' / 2 = h_before + u * u / 2).
Proof.
  intros eta u hb ha He Hu Hd u'. destruct (border_outflow eta u hb ha He Hu Hd) as [A B]. fold u' in A, B.
  split; [exact A|]. split; [lra|]. intros ->. lra.
Qed.
Print Assumptions C93_mixture_outflow.
Example C93_outflow_example : 0 <= 1 /\ 0 <= 3 /\ 1 < 2. Proof. lra. Qed.

(** In all other cases the velocity is wrong: outflow against the same pressure is turned around, outflow against a higher pressure never stays an
    outflow, and outflow through the lower boundary into a lower pressure is slowed down or turned into an inflow. *)
Theorem C93_mixture_refuted : forall efficiency u h_before h_after, 0 <= efficiency ->
  (0 < u -> border_velocity efficiency u h_before h_before = - u) /\
  (0 < u -> h_before < h_after -> border_velocity efficiency u h_before h_after <= 0) /\
  (u < 0 -> h_after < h_before ->
     let u' := border_velocity efficiency u h_before h_after in
     u' * u' = Rabs (2 * efficiency * (h_before - h_after) - u * u) /\
     (u * u < 2 * efficiency * (h_before - h_after) -> 0 < u')).
Proof.
  intros eta u hb ha He. split; [|split].
  - apply border_equal.
  - intros. apply border_compression; assumption.
  - intros. apply border_lower; assumption.
Qed.
Print Assumptions C93_mixture_refuted.

(** Perfect gas: density and pressure follow the isentrope, but the square of the velocity is divided by the square of the old velocity:
    without losses the total enthalpy is kept exactly for gas with the speed 1. *)
Theorem C93_perfect_gas_speed_refuted : forall (eq : gas) (q : Complete) pn,
  1 < gamma eq -> gamma_minus_1_inv eq = 1 / (gamma eq - 1) -> 0 < Rspec eq ->
  0 < density q -> 0 < pn < pressure q -> 0 < sprod (velocity_of q) (velocity_of q) ->
  let g := gamma eq in
  let q' := IsentropicExpansionPerfectGas eq q pn 1 in
  pressure q' = pn /\ same_entropy g (density q) (pressure q) (density q') pn /\
  (stagnation_enthalpy g (density q') (velocity_of q') pn = stagnation_enthalpy g (density q) (velocity_of q) (pressure q)
   <-> sprod (velocity_of q) (velocity_of q) = 1).
Proof.
  intros eq q pn Hg Hi HR Hr [Hn Hlt] Hu g q'. assert (Hp : 0 < pressure q) by lra.
  assert (I : 0 < iso g (density q) (pressure q) pn) by (apply iso_pos; exact Hr).
  set (U := sprod (velocity_of q) (velocity_of q)) in *.
  set (rn := iso g (density q) (pressure q) pn) in *.
  set (dh := enthalpy g (density q) (pressure q) - enthalpy g rn pn).
  assert (D : 0 < dh).
  { assert (Z := temperature_lt g _ _ _ Hg Hr Hp Hn Hlt). fold rn in Z.
    unfold dh, enthalpy. rewrite <- Rmult_minus_distr_l. apply Rmult_lt_0_compat; [apply Rdiv_lt_0_compat|]; unfold g in *; lra. }
  assert (E : q' = CompleteFromPrim eq (mkPrim rn (vscale (sqrt (2 * dh + U) / U) (velocity_of q)) pn)).
  { unfold q', IsentropicExpansionPerfectGas. fold g. cbv zeta.
    rewrite (perfect_gas_density g (density q) (pressure q) pn (Rspec eq) Hg Hr Hp Hn HR). fold rn.
    rewrite squaredNorm_sprod. fold U. rewrite Hi. fold g.
    replace (pressure q * (1 + 1 / (g - 1)) / density q - pn * (1 + 1 / (g - 1)) / rn) with dh.
    2:{ unfold dh, enthalpy. field. unfold g in *. repeat split; lra. }
    rewrite sgn_pos by exact D. rewrite Rabs_pos_eq by lra.
    replace (1 * sqrt (1 * dh * 2 + U)) with (sqrt (2 * dh + U)) by (replace (1 * dh * 2) with (2 * dh) by ring; ring). reflexivity. }
  assert (V : velocity_of q' = vscale (sqrt (2 * dh + U) / U) (velocity_of q)).
  { rewrite E. unfold velocity_of at 1, CompleteFromPrim. cbn [density momentum p_density p_velocity]. apply vscale_div. lra. }
  assert (X1 : density q' = rn) by (rewrite E; reflexivity).
  assert (X2 : pressure q' = pn) by (rewrite E; reflexivity).
  split; [exact X2|]. rewrite X1. split; [apply iso_entropy; assumption|].
  unfold stagnation_enthalpy. rewrite V, sprod_scale2. fold U.
  replace (sqrt (2 * dh + U) / U * (sqrt (2 * dh + U) / U) * U) with (sqrt (2 * dh + U) * sqrt (2 * dh + U) / U) by (field; lra).
  rewrite sqrt_sqrt by lra.
  assert (K : enthalpy g (density q) (pressure q) = enthalpy g rn pn + dh) by (unfold dh; ring). rewrite K.
  assert (L : 2 * dh + U > 0) by lra.
  split; intro H.
  - assert (Q : (2 * dh + U) / U = 2 * dh + U) by lra.
    apply Rmult_eq_reg_l with (2 * dh + U); [|lra]. rewrite <- Q at 1. field. lra.
  - rewrite H. field.
Qed.
Print Assumptions C93_perfect_gas_speed_refuted.

Example C93_perfect_gas_example :
  let q := mkComplete 1 [2; 0] 4 2 2 in
  0 < density q /\ 0 < 1 < pressure q /\ 0 < sprod (velocity_of q) (velocity_of q) /\ gamma_minus_1_inv (mkGas 2 1 1) = 1 / (gamma (mkGas 2 1 1) - 1).
Proof. unfold velocity_of. cbn [density pressure momentum map sprod gamma gamma_minus_1_inv]. repeat split; lra. Qed.

(** ** C94 *)

(** Expansion to a Mach number: pressure and velocity belong to the state with the entropy and the total enthalpy of the source (counting its
    velocity in the direction of the boundary) and with the required Mach number; the other components of the velocity stay. *)
Theorem C94_pressure_and_velocity : forall (eq : gas) Ma d (q : Complete),
  1 < gamma eq -> sound_state (gamma eq) q -> (d < length (momentum q))%nat ->
  let g := gamma eq in
  let q' := MachnumberExpand eq Ma d q in
  let u := nth d (velocity_of q) 0 in
  let u' := nth d (velocity_of q') 0 in
  exists rho, 0 < rho /\ same_entropy g (density q) (pressure q) rho (pressure q') /\
    mach_squared g rho [u'] (pressure q') = Ma * Ma /\
    stagnation_enthalpy g rho [u'] (pressure q') = stagnation_enthalpy g (density q) [u] (pressure q) /\
    0 <= u' /\ (forall i, i <> d -> nth i (velocity_of q') 0 = nth i (velocity_of q) 0).
Proof.
  intros eq Ma d q Hg [Hr [Hp [_ Hc]]] Hd g q' u u'.
  destruct (mach_reference eq Ma d q Hg Hr Hp Hc) as [A [B C]]. fold q' in A, B, C.
  assert (M := mach_component eq Ma d q Hg Hr Hp Hc Hd). fold q' in M. fold u' in M.
  destruct (mach_fields eq Ma d q Hg Hr Hp Hc) as [_ [_ [V _]]]. fold q' in V.
  cbv zeta in *. rewrite <- M in B, C, V.
  exists (iso g (density q) (pressure q) (pressure q')). split; [apply iso_pos; exact Hr|].
  split; [exact A|]. split; [exact B|]. split; [exact C|]. split.
  - rewrite M. apply sqrt_pos.
  - intros i Hi. rewrite V. apply nth_set_other. exact Hi.
Qed.
Print Assumptions C94_pressure_and_velocity.

Definition mach_sample : Complete := mkComplete 1 [Ropp 1; 3] 7 2 2.
Example C94_example :
  1 < gamma (mkGas 2 1 1) /\ sound_state 2 mach_sample /\ (0 < length (momentum mach_sample))%nat /\ nth 0 (velocity_of mach_sample) 0 < 0.
Proof.
  unfold sound_state, mach_sample, velocity_of. cbn [density pressure speed_of_sound gamma momentum length nth map]. repeat split; try lra. lia.
Qed.

(** The density is wrong for every required Mach number but 0: the expansion is not isentropic, and the state that is written has a larger
    Mach number than the required one. *)
Theorem C94_mach_number_refuted : forall (eq : gas) Ma d (q : Complete),
  1 < gamma eq -> sound_state (gamma eq) q -> (d < length (momentum q))%nat -> Ma <> 0 ->
  let g := gamma eq in
  let q' := MachnumberExpand eq Ma d q in
  let u' := nth d (velocity_of q') 0 in
  ~ same_entropy g (density q) (pressure q) (density q') (pressure q') /\
  mach_squared g (density q') [u'] (pressure q') = Ma * Ma * Rpower (1 + (g - 1) / 2 * (Ma * Ma)) (2 / ((g - 1) * (g + 1))) /\
  Ma * Ma < mach_squared g (density q') [u'] (pressure q').
Proof.
  intros eq Ma d q Hg [Hr [Hp [_ Hc]]] Hd HM g q' u'.
  assert (M := mach_component eq Ma d q Hg Hr Hp Hc Hd). fold q' in M. fold u' in M.
  assert (A := mach_actual eq Ma d q Hg Hr Hp Hc). fold q' in A. cbv zeta in *. rewrite <- M in A. fold g in A.
  split; [apply (not_same_entropy eq Ma d q Hg Hr Hp Hc HM)|]. split; [exact A|].
  rewrite A. assert (P := f_gt eq Ma Hg HM). fold g in P.
  assert (X : 0 < 2 / ((g - 1) * (g + 1))) by (apply Rdiv_lt_0_compat; [lra|]; apply Rmult_lt_0_compat; unfold g in *; lra).
  assert (L := Rlt_Rpower_l 1 _ _ X (conj Rlt_0_1 P)). rewrite Rpower_base_1 in L.
  replace (Ma * Ma) with (Ma * Ma * 1) at 1 by ring. apply Rmult_lt_compat_l; [apply sqr_pos; exact HM | exact L].
Qed.
Print Assumptions C94_mach_number_refuted.

(** The velocity of the boundary state is positive for every source: outflow through a lower boundary becomes inflow. *)
Theorem C94_direction_refuted : forall (eq : gas) Ma d (q : Complete),
  1 < gamma eq -> sound_state (gamma eq) q -> (d < length (momentum q))%nat -> Ma <> 0 -> nth d (velocity_of q) 0 < 0 ->
  0 < nth d (velocity_of (MachnumberExpand eq Ma d q)) 0.
Proof.
  intros eq Ma d q Hg [Hr [Hp [_ Hc]]] Hd HM _. rewrite (mach_component eq Ma d q Hg Hr Hp Hc Hd). apply (un_pos eq Ma d q Hg Hr Hp HM).
Qed.
Print Assumptions C94_direction_refuted.
