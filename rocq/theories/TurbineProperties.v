(** C130-C133 (outflow boundary conditions: outer pressure, turbine, plenum in front of a turbine). *)
From Coq Require Import List Reals ZArith Bool Lia Lra Psatz Permutation.
From Verif Require Import ArrayModel ArraySpec ArrayProofs BoxProofs BoundaryModel BoundarySpec BoundaryProofs BoundaryProofs2 BoundaryProofs3.
From Verif Require Import GasModel GasSpec GasProofs NewtonModel RiemannModel RiemannSpec RiemannProofs RiemannProofs2 RiemannProofs3 RiemannProofs4 RiemannProperties.
From Verif Require Import TurbineModel TurbineSpec TurbineProofs TurbineProofs2 TurbineProofs3 TurbineProofs4 TurbineProofs5.
Import ListNotations.
Local Open Scope R_scope.

(** ** C130: a given pressure outside *)

(** If the gas is not faster than sound, the ghost state has the outer pressure, the velocity and the temperature (the speed of sound) of the
    gas; otherwise it is the state of the gas. *)
Theorem C130_state : forall g pb q, perfect g -> admissible g q -> 0 < pb ->
  (speed2 q <= speed_of_sound q * speed_of_sound q ->
     pressure (OutflowState g pb q) = pb /\ same_velocity (OutflowState g pb q) q /\
     speed_of_sound (OutflowState g pb q) = speed_of_sound q /\ admissible g (OutflowState g pb q)) /\
  (speed_of_sound q * speed_of_sound q < speed2 q -> OutflowState g pb q = q).
Proof. intros g pb q Hg Hq Hb. split; [intros H; apply outflow_subsonic; assumption | apply outflow_supersonic]. Qed.
Print Assumptions C130_state.

(** One patch: every ghost cell beyond the side next to the domain gets the ghost state of the last cell of its row, if both cells contain gas,
    and zero otherwise; the other cells keep their values. *)
Theorem C130_patch : forall (g : gas) (pb : R) (n : nat) (alpha : index -> R) (domain patch : IndexBox) (periodic : list bool)
    (boundaries : list IndexBox) (dir : nat) (side ngrow : Z) (d : index -> Complete),
  box_of_rank n domain -> box_of_rank n patch -> length periodic = n -> (dir < n)%nat -> (0 < ngrow)%Z ->
  side = 0%Z \/ side = 1%Z -> nth dir periodic false = false -> nonempty patch -> subbox patch domain ->
  decomposition n domain (growNonPeriodicDomain domain periodic ngrow) boundaries ->
  exists d', OutflowPatch (OutflowCell n g pb) alpha domain boundaries dir side ngrow patch (Some d) = Some d' /\
    (forall k j, in_box (grow_box patch ngrow) k -> beyond domain dir side k -> alongside domain dir k ->
       replaced dir (last_cell domain dir side) k j ->
       (0 < alpha k -> 0 < alpha j -> d' k = OutflowState g pb (d j)) /\
       (alpha k <= 0 \/ alpha j <= 0 -> d' k = mkComplete 0 (repeat 0 n) 0 0 0)) /\
    (forall k, ~ beyond domain dir side k -> d' k = d k).
Proof.
  intros g pb n alpha D P per bs dir side ng d HD HP Lp Hd Hg Hs Np NP SP Hdec.
  destruct (grown_domain n D per ng HD Lp) as [RG HG]. pose proof (grown_domain_sub n D per ng HD Lp ltac:(lia)) as SG.
  destruct (HG dir Hd) as [G1 G2]. rewrite Np in G1, G2.
  destruct (outflow_patch (OutflowCell n g pb) alpha n D _ bs dir side ng P d HD HP Hd Hg Hs NP SP Hdec) as (d' & E & A & B & C).
  exists d'. split; [exact E|]. split.
  - intros k j HV HB HA HR.
    assert (In k (destinations D bs dir side ng P)) as J by (eapply (in_destinations_reflective n D _ bs dir side ng P k); try eassumption; lia).
    rewrite (A k j J HR). unfold OutflowCell. split.
    + intros Ak Aj. destruct (Rlt_dec 0 (alpha k)); [|contradiction]. destruct (Rlt_dec 0 (alpha j)); [reflexivity|contradiction].
    + intros H. destruct (Rlt_dec 0 (alpha k)); [|reflexivity]. destruct (Rlt_dec 0 (alpha j)); [|reflexivity]. lra.
  - intros k Hk. apply B. intros J. apply Hk, C, J.
Qed.
Print Assumptions C130_patch.

(** A mixture of gases also keeps the mass fractions and the passive scalars. *)
Theorem C130_mixture : forall eq pb q,
  1 < mgamma eq -> 0 < y_density q -> 0 < y_sound q -> 0 < pb ->
  let r := OutflowMixture eq pb q in
  (mix_speed2 q <= y_sound q * y_sound q ->
     y_pressure r = pb /\ y_sound r = y_sound q /\ 0 < y_density r /\
     same_fractions (y_density r) (y_momentum r) (y_density q) (y_momentum q) /\
     same_fractions (y_density r) (y_species r) (y_density q) (y_species q) /\
     same_fractions (y_density r) (y_scalars r) (y_density q) (y_scalars q) /\
     y_energy r = Msq eq * kinetic (y_density r) (map (fun m => m / y_density r) (y_momentum r)) + pb / (mgamma eq - 1)) /\
  (y_sound q * y_sound q < mix_speed2 q -> r = q).
Proof.
  intros eq pb q G Hr Ha Hb r. split; [intros H; apply outflow_mixture; assumption|].
  intros H. unfold r, OutflowMixture. cbv zeta.
  assert (squaredNorm (map (fun m => m / y_density q) (y_momentum q)) = mix_speed2 q) as ->
    by (unfold squaredNorm, mix_speed2; rewrite dot_self, map_map; reflexivity).
  destruct (Rle_dec _ _); [lra|reflexivity].
Qed.
Print Assumptions C130_mixture.

(** The outer pressure acts on every gas which leaves the domain slower than sound: not so, the speed along the boundary counts, too. *)
Theorem C130_normal_velocity_refuted : exists g pb q, perfect g /\ admissible g q /\ 0 < pb /\
  speed q 0 < speed_of_sound q /\ pressure (OutflowState g pb q) <> pb.
Proof.
  set (q := mkComplete (7 / 5) [0; 7 / 5 * 2] (5 / 2 + 7 / 5 * 2) 1 1).
  assert (admissible air q) as A.
  { split; [cbn; lra|]. split; [cbn; lra|]. split; [|split; cbn; lra]. cbn. unfold kinetic. cbn. field. }
  exists air, (1 / 2), q. split; [apply air_perfect|]. split; [exact A|]. split; [lra|]. split.
  - unfold speed, q. cbn. lra.
  - rewrite outflow_supersonic; [cbn; lra|]. unfold speed2, q. cbn. lra.
Qed.
Print Assumptions C130_normal_velocity_refuted.

Example C130_example : perfect air /\ admissible air (moving 1) /\ 0 < 1 / 2 /\
  speed2 (moving 1) <= speed_of_sound (moving 1) * speed_of_sound (moving 1) /\
  pressure (OutflowState air (1 / 2) (moving 1)) = 1 / 2 /\ density (OutflowState air (1 / 2) (moving 1)) = 1 / 2.
Proof.
  assert (speed2 (moving 1) <= speed_of_sound (moving 1) * speed_of_sound (moving 1)) as S.
  { unfold speed2, moving. cbn. rewrite sqrt_sqrt by lra. lra. }
  split; [apply air_perfect|]. split; [apply moving_admissible|]. split; [lra|]. split; [exact S|].
  destruct (outflow_subsonic air (1 / 2) (moving 1) air_perfect (moving_admissible 1) ltac:(lra) S) as (P & _ & _ & _). split; [exact P|].
  unfold OutflowState. cbv zeta. rewrite speed2_velocity. destruct (Rle_dec _ _) as [_|N]; [|contradiction].
  cbn. rewrite sqrt_sqrt by lra. field.
Qed.

(** ** C131: the mass flow of a turbine with the exact Riemann problem *)

(** The ghost state is a gas behind a single wave which runs into the inner gas, with the same velocities along the boundary.
    Its pressure differs by at most 4095 eps p from that of such a gas with exactly the required mass flow. *)
Theorem C131_ghost : forall bisect g l m area d q, bracketing bisect ->
  perfect g -> admissible g l -> (d < length (momentum l))%nat -> 0 < area ->
  SolveExact bisect g l m area d = Ghost q ->
  admissible g q /\ length (momentum q) = length (momentum l) /\ (forall k, k <> d -> speed q k = speed l k) /\
  behind_wave g d l q /\
  exists q', admissible g q' /\ behind_wave g d l q' /\ area * nth d (momentum q') 0 = m /\
    forall eps, precise eps bisect -> Rabs (pressure q - pressure q') <= eps * (4095 * pressure l).
Proof.
  intros bisect g l m area d q HB Hg Hl Hd Ha E.
  destruct (solve_exact_ghost g l d Hg Hl bisect m area q HB E) as (lo & hi & L1 & L2 & L3 & L4 & ->).
  set (p := lo + 1 / 2 * (hi - lo)). assert (0 < p) as Hp by (unfold p; lra).
  destruct (behind_facts g l d (m / area) Hg Hl Hd p Hp) as (A & B & C & D & F & _).
  split; [exact A|]. split; [exact B|]. split; [exact F|]. split; [apply behind_wave_behind; assumption|].
  destruct (flow_between g l d (m / area) Hg Hl lo hi L1 L2 L4) as (p' & P1 & P2).
  exists (behind g l d (m / area) p'). assert (0 < p') as Hp' by lra.
  destruct (behind_facts g l d (m / area) Hg Hl Hd p' Hp') as (A' & _ & C' & _ & _ & G').
  split; [exact A'|]. split; [apply behind_wave_behind; assumption|]. split.
  - rewrite delta_flow in P2 by assumption. rewrite G'. set (x := rho_star _ p' * u_star _ p') in *.
    assert (x = m / area) as -> by lra. field. lra.
  - intros eps He. specialize (L3 eps He). rewrite C, C'. unfold p. apply Rabs_le. lra.
Qed.
Print Assumptions C131_ghost.

(** What flows through the boundary: if the gas and the ghost state move slower than sound, the ghost state is the solution of the Riemann problem between the
    inner gas and the ghost state on the boundary, and the mass flow there is that of the ghost state. *)
Theorem C131_boundary_flux : forall bisect g l m area d q, bracketing bisect ->
  perfect g -> admissible g l -> (d < length (momentum l))%nat -> 0 < area ->
  SolveExact bisect g l m area d = Ghost q -> speed l d < speed_of_sound l -> speed q d < speed_of_sound q ->
  exists w, riemann_solution g d l q w /\ w 0 = q /\ transport Mass (w 0) d = nth d (momentum q) 0.
Proof.
  intros bisect g l m area d q HB Hg Hl Hd Ha E S1 S2.
  destruct (solve_exact_ghost g l d Hg Hl bisect m area q HB E) as (lo & hi & L1 & L2 & L3 & L4 & ->).
  set (p := lo + 1 / 2 * (hi - lo)) in *. assert (0 < p) as Hp by (unfold p; lra).
  destruct (behind_solution g l d (m / area) Hg Hl Hd p Hp) as (A & _ & B). specialize (B S1 S2).
  eexists. split; [exact A|]. rewrite B. split; [reflexivity|].
  destruct (behind_facts g l d (m / area) Hg Hl Hd p Hp) as ((Q & _) & _). cbn [transport]. unfold speed. field. lra.
Qed.
Print Assumptions C131_boundary_flux.

(** More mass than the gas can deliver by expanding into vacuum is rejected. *)
Theorem C131_rejected : forall bisect g l m area d, perfect g -> admissible g l -> (d < length (momentum l))%nat ->
  0 <= m / area -> density l * (speed l d + 2 / (gamma g - 1) * speed_of_sound l) < m / area ->
  SolveExact bisect g l m area d = Throws.
Proof. intros. apply solve_exact_throws; assumption. Qed.
Print Assumptions C131_rejected.

(** A turbine which lets pass less than what arrives always gets a state, unless the gas is extremely fast (for air: Mach number above 48). *)
Theorem C131_accepted : forall bisect g l m area d, perfect g -> admissible g l -> (d < length (momentum l))%nat ->
  0 <= m / area <= density l * speed l d ->
  speed l d * speed l d * (gamma g * (gamma g + 1)) <= 8000 * (speed_of_sound l * speed_of_sound l) ->
  exists q, SolveExact bisect g l m area d = Ghost q.
Proof. intros. apply solve_exact_succeeds; assumption. Qed.
Print Assumptions C131_accepted.

(** A mass flow is accepted whenever a gas behind a wave has it: not so, the search halves the pressure and may step over the maximum. *)
Theorem C131_complete_refuted : exists g l m area d q,
  perfect g /\ admissible g l /\ (d < length (momentum l))%nat /\ 0 < area /\ speed l d < speed_of_sound l /\
  admissible g q /\ behind_wave g d l q /\ area * nth d (momentum q) 0 = m /\
  forall bisect, SolveExact bisect g l m area d = Throws.
Proof.
  pose proof air_perfect as Hg. pose proof (moving_admissible laval_speed) as Hl.
  assert ((0 < length (momentum (moving laval_speed)))%nat) as Hd by (cbn; lia).
  assert (0 < (19 / 20) ^ 7) as Hp by (apply pow_lt; lra).
  destruct (behind_facts air (moving laval_speed) 0 missed Hg Hl Hd _ Hp) as (A & _ & _ & _ & _ & F).
  exists air, (moving laval_speed), missed, 1, 0%nat, (behind air (moving laval_speed) 0 missed ((19 / 20) ^ 7)).
  split; [exact Hg|]. split; [exact Hl|]. split; [exact Hd|]. split; [lra|]. split.
  { assert (0 < sqrt (7 / 5)) by (apply sqrt_lt_R0; lra). unfold speed, laval_speed. cbn. lra. }
  split; [exact A|]. split; [apply behind_wave_behind; assumption|]. split.
  - rewrite F. pose proof missed_root as M. rewrite delta_flow in M by exact Hp. lra.
  - apply missed_throws.
Qed.
Print Assumptions C131_complete_refuted.

(** A gas at Mach number 1/2 of which half may pass. *)
Example C131_example : bracketing (bisection 48) /\ precise ((/ 2) ^ 48) (bisection 48) /\ perfect air /\ admissible air (moving (1 / 2 * sqrt (7 / 5))) /\
  exists q, SolveExact (bisection 48) air (moving (1 / 2 * sqrt (7 / 5))) (1 / 4 * sqrt (7 / 5)) 1 0 = Ghost q.
Proof.
  pose proof (bisection_precise 48) as P. split; [exact (proj1 P)|]. split; [exact P|]. split; [apply air_perfect|]. split; [apply moving_admissible|].
  assert (0 < sqrt (7 / 5)) as S by (apply sqrt_lt_R0; lra). assert (sqrt (7 / 5) * sqrt (7 / 5) = 7 / 5) as SS by (apply sqrt_sqrt; lra).
  apply C131_accepted; [apply air_perfect | apply moving_admissible | cbn; lia | |]; unfold speed; cbn; lra.
Qed.

(** ** C132: the mass flow of a turbine without losses *)

(** The required mass flow is the one with the given corrected mass flow m sqrt(T0) / p0, for a gas which moves orthogonally to the turbine. *)
Theorem C132_required : forall g correlation d q, perfect g -> admissible g q -> 0 < Rspec g -> speed2 q = speed q d * speed q d ->
  let T0 := total_temperature (gamma g) (Rspec g) (density q) (speed2 q) (pressure q) in
  let p0 := total_pressure (gamma g) (density q) (speed2 q) (pressure q) in
  0 < T0 /\ 0 < p0 /\ ComputeRequiredMassflow g correlation d q * sqrt T0 / p0 = correlation.
Proof.
  intros g correlation d q Hg Hq HR E T0 p0. pose proof Hq as (Hr & Hp & _).
  assert (0 <= speed2 q) as N by (rewrite E; nra).
  destruct (total_positive (gamma g) (Rspec g) (density q) (speed2 q) (pressure q) (proj1 Hg) HR Hr N Hp) as [P1 P2].
  split; [exact P2|]. split; [exact P1|]. rewrite required_total by assumption. rewrite <- E. fold T0 p0.
  pose proof (sqrt_lt_R0 _ P2). fold T0 in H. fold p0 in P1. field. split; lra.
Qed.
Print Assumptions C132_required.

(** With a velocity along the turbine the total pressure and temperature are those of the normal velocity only, and the corrected mass flow is too small. *)
Theorem C132_required_oblique_refuted : forall g correlation d q, perfect g -> admissible g q -> 0 < Rspec g -> 0 < correlation ->
  speed q d * speed q d < speed2 q ->
  ComputeRequiredMassflow g correlation d q <
  correlation * total_pressure (gamma g) (density q) (speed2 q) (pressure q) /
    sqrt (total_temperature (gamma g) (Rspec g) (density q) (speed2 q) (pressure q)).
Proof.
  intros g correlation d q Hg Hq HR Hc H. pose proof Hq as (Hr & Hp & _). rewrite required_total by assumption.
  unfold Rdiv. rewrite !Rmult_assoc. apply Rmult_lt_compat_l; [exact Hc|].
  apply (flow_increasing (gamma g) (Rspec g) (density q) (pressure q)); auto; [apply Hg|]. split; [nra | exact H].
Qed.
Print Assumptions C132_required_oblique_refuted.

(** The average over the boundary does not depend on the distribution over the processes nor on the order of the cells, and it is the mean value. *)
Theorem C132_average : forall g correlation d processes1 processes2 n,
  Permutation (concat processes1) (concat processes2) ->
  AverageRequiredMassflow g correlation d processes1 n = AverageRequiredMassflow g correlation d processes2 n /\
  AverageRequiredMassflow g correlation d processes1 n = sum (map (ComputeRequiredMassflow g correlation d) (concat processes1)) / n.
Proof.
  intros g correlation d p1 p2 n H. rewrite !average_concat. split.
  - apply sum_permutation, Permutation_map, H.
  - apply sum_divided.
Qed.
Print Assumptions C132_average.

(** The ghost state has the entropy of the inner gas and its transversal velocities.  If it is not faster than sound, it also has the total enthalpy of the inner gas
    and at most the required mass flow, up to the tolerance of the Newton iteration; the mass flow is also not smaller than that, if the
    Newton iteration did not give up. *)
Theorem C132_jirasek_partial : forall g l m area d q, perfect g -> admissible g l -> (d < length (momentum l))%nat -> 0 < area ->
  Jirasek g l m area d = Ghost q ->
  let v := speed l (Nat.modulo (d + 1) (length (momentum l))) in
  admissible g q /\ length (momentum q) = length (momentum l) /\ (forall k, k <> d -> speed q k = speed l k) /\
  isentrope (gamma g) (density q) (pressure q) = isentrope (gamma g) (density l) (pressure l) /\
  (speed q d * speed q d + v * v <= speed_of_sound q * speed_of_sound q ->
     total_enthalpy (gamma g) (density q) (speed2 q) (pressure q) = total_enthalpy (gamma g) (density l) (speed2 l) (pressure l) /\
     exists rho0, 0 < rho0 /\
       rho0 = density l * Rpower (1 + (gamma g - 1) / 2 * ((speed l d * speed l d + v * v) / (speed_of_sound l * speed_of_sound l))) (1 / (gamma g - 1)) /\
       area * nth d (momentum q) 0 <= m + / 10 ^ 7 * (area * rho0)).
Proof.
  intros g l m area d q Hg Hl Hd Ha E v. rewrite (jirasek_form g l d m area) in E.
  destruct (NewtonIteration _ _ _ _ _) as [u|] eqn:EN; [|discriminate]. injection E as <-.
  destruct (j_facts g l d Hg Hl) as (G & Hr & Hp & Has & He & P & A0 & C0 & E0 & K & RD & RP & AL).
  destruct (expanded_facts g l d Hg Hl Hd u) as (F1 & F2 & F3 & F4 & F5 & F6 & F7 & F8 & F9). cbv zeta in F1, F2, F3, F4, F5, F6, F7, F8, F9.
  split; [exact F1|]. split; [exact F2|]. split; [exact F4|]. split; [exact F5|]. rewrite F3. intros S.
  apply (subcritical_iff g l d Hg Hl Hd u) in S. split; [apply expanded_enthalpy; assumption|].
  exists (rest_density g l d). split; [exact RD|]. split.
  - unfold rest_density, a0, k0, planar, second. fold v. f_equal. f_equal.
    assert (0 < speed_of_sound l * speed_of_sound l) by (apply Rmult_lt_0_compat; exact Has). field. lra.
  - pose proof (the_f_value g l d m area Hg Hl u S) as FV.
    rewrite (jirasek_flow g l d m area Hg Hl Hd u Ha S _ FV).
    assert (u * Rpower (an g l d u) (k0 g) - be g l d m area <= newton_tolerance) as L.
    { eapply newton_upper; [exact EN | unfold newton_tolerance; lra | exact FV]. }
    unfold newton_tolerance in L. assert (/ 10 ^ 7 = / 10000000) as -> by (f_equal; ring).
    assert (0 < area * rest_density g l d) as AR by (apply Rmult_lt_0_compat; assumption).
    apply (Rmult_le_compat_l (area * rest_density g l d)) in L; [|lra]. lra.
Qed.
Print Assumptions C132_jirasek_partial.

(** A gas slower than sound which already has the required mass flow is kept. *)
Theorem C132_consistent : forall g l m area d, perfect g -> admissible g l -> (d < length (momentum l))%nat -> 0 < area ->
  m = area * nth d (momentum l) 0 ->
  let v := speed l (Nat.modulo (d + 1) (length (momentum l))) in
  speed l d * speed l d + v * v <= speed_of_sound l * speed_of_sound l ->
  Jirasek g l m area d = Ghost l.
Proof.
  intros g l m area d Hg Hl Hd Ha Em v S.
  destruct (j_facts g l d Hg Hl) as (G & Hr & Hp & Has & He & P & A0 & C0 & E0 & K & RD & RP & AL).
  assert (0 < speed_of_sound l * speed_of_sound l) as C by (apply Rmult_lt_0_compat; exact Has).
  assert (planar l d (speed l d) <= 2 * c02 g l d / (gamma g + 1)) as Sc.
  { apply (Rmult_le_reg_r (gamma g + 1)); [lra|]. unfold Rdiv. rewrite Rmult_assoc, Rinv_l by lra. unfold c02.
    assert (planar l d (speed l d) <= speed_of_sound l * speed_of_sound l) by exact S. lra. }
  assert (an g l d (speed l d) = / a0 g l d) as An.
  { rewrite an_subcritical by assumption. unfold al. rewrite E0. unfold a0. fold (planar l d (speed l d)).
    assert (0 < 1 + planar l d (speed l d) / (speed_of_sound l * speed_of_sound l) * (1 / 2 * (gamma g - 1))) by (unfold a0 in A0; lra).
    field. split; [lra|].
    replace (speed_of_sound l * speed_of_sound l * 2 + planar l d (speed l d) * (gamma g - 1)) with (2 * c02 g l d) by (unfold c02; field).
    lra. }
  assert (Rpower (a0 g l d) (k0 g) * Rpower (/ a0 g l d) (k0 g) = 1) as W.
  { rewrite Rpower_mult_distr by (try apply Rinv_0_lt_compat; lra). rewrite Rinv_r by lra. apply Rpower_base_1. }
  assert (Rpower (a0 g l d) (gamma g * k0 g) * Rpower (/ a0 g l d) (gamma g * k0 g) = 1) as W2.
  { rewrite Rpower_mult_distr by (try apply Rinv_0_lt_compat; lra). rewrite Rinv_r by lra. apply Rpower_base_1. }
  rewrite (jirasek_form g l d m area). rewrite (newton_start _ _ (speed l d) newton_tolerance 0).
  - f_equal. unfold expanded. rewrite An. unfold rest_density, rest_pressure. rewrite !Rmult_assoc, W, W2, !Rmult_1_r.
    apply (prim_self g l d Hg Hd Hl).
  - rewrite the_f_value by assumption. rewrite An. f_equal. unfold be, rest_density. rewrite Em.
    pose proof (Rpower_pos (a0 g l d) (k0 g)) as Q.
    assert (Rpower (/ a0 g l d) (k0 g) = / Rpower (a0 g l d) (k0 g)) as ->
      by (apply (Rmult_eq_reg_l (Rpower (a0 g l d) (k0 g))); [rewrite W, Rinv_r|]; lra).
    unfold speed. field. repeat split; lra.
  - unfold newton_tolerance. lra.
Qed.
Print Assumptions C132_consistent.

(** The mass flow is the required one for every gas: not so, for a gas faster than sound the density is limited but not the velocity. *)
Theorem C132_supersonic_refuted : forall g l m area d, perfect g -> admissible g l -> (d < length (momentum l))%nat -> 0 < area ->
  m = area * nth d (momentum l) 0 -> 0 < m ->
  let v := speed l (Nat.modulo (d + 1) (length (momentum l))) in
  speed_of_sound l * speed_of_sound l < speed l d * speed l d + v * v ->
  exists q, Jirasek g l m area d = Ghost q /\ speed q d = speed l d /\ m < area * nth d (momentum q) 0 /\
    total_enthalpy (gamma g) (density l) (speed2 l) (pressure l) < total_enthalpy (gamma g) (density q) (speed2 q) (pressure q).
Proof.
  intros g l m area d Hg Hl Hd Ha Em Pm v S.
  destruct (j_facts g l d Hg Hl) as (G & Hr & Hp & Has & He & P & A0 & C0 & E0 & K & RD & RP & AL).
  set (c2 := speed_of_sound l * speed_of_sound l) in *. assert (0 < c2) as C by (apply Rmult_lt_0_compat; exact Has).
  assert (c2 < planar l d (speed l d)) as S' by exact S.
  assert (2 * c02 g l d / (gamma g + 1) <= planar l d (speed l d)) as Sc.
  { apply (Rmult_le_reg_r (gamma g + 1)); [lra|]. unfold Rdiv. rewrite Rmult_assoc, Rinv_l by lra. unfold c02. fold c2. lra. }
  pose proof (an_supercritical g l d Hg Hl _ Sc) as An.
  assert (1 - al g l d * planar l d (speed l d) = / a0 g l d) as Ax.
  { unfold al. rewrite E0. unfold a0. fold c2. fold (planar l d (speed l d)).
    assert (0 < 1 + planar l d (speed l d) / c2 * (1 / 2 * (gamma g - 1))) by (unfold a0 in A0; fold c2 in A0; lra).
    field. split; [lra|].
    replace (c2 * 2 + planar l d (speed l d) * (gamma g - 1)) with (2 * c02 g l d) by (unfold c02; fold c2; field). lra. }
  assert (/ a0 g l d < 2 / (gamma g + 1)) as Lt.
  { replace (2 / (gamma g + 1)) with (/ ((gamma g + 1) / 2)) by (field; lra). apply Rinv_lt_contravar; [apply Rmult_lt_0_compat; lra|].
    unfold a0. fold c2. assert (1 < planar l d (speed l d) / c2).
    { apply (Rmult_lt_reg_r c2); [exact C|]. unfold Rdiv. rewrite Rmult_assoc, Rinv_l; lra. }
    assert (0 < (planar l d (speed l d) / c2 - 1) * (gamma g - 1)) by (apply Rmult_lt_0_compat; lra). lra. }
  assert (0 < / a0 g l d) as Pa by (apply Rinv_0_lt_compat; lra).
  assert (Rpower (a0 g l d) (k0 g) * Rpower (/ a0 g l d) (k0 g) = 1) as W.
  { rewrite Rpower_mult_distr by lra. rewrite Rinv_r by lra. apply Rpower_base_1. }
  assert (the_f g l d m area (speed l d) = Fin 0) as F0.
  { unfold the_f, jirasek_f. fold (planar l d (speed l d)). rewrite Ax. unfold dpow. destruct (Rlt_dec 0 (/ a0 g l d)); [|contradiction].
    cbn [dscale dadd]. f_equal. unfold be, rest_density. rewrite Em.
    pose proof (Rpower_pos (a0 g l d) (k0 g)) as Q.
    assert (Rpower (/ a0 g l d) (k0 g) = / Rpower (a0 g l d) (k0 g)) as ->
      by (apply (Rmult_eq_reg_l (Rpower (a0 g l d) (k0 g))); [rewrite W, Rinv_r|]; lra).
    unfold speed. field. repeat split; lra. }
  rewrite (jirasek_form g l d m area). rewrite (newton_start _ _ (speed l d) newton_tolerance 0 F0) by (unfold newton_tolerance; lra).
  destruct (expanded_facts g l d Hg Hl Hd (speed l d)) as (F1 & F2 & F3 & F4 & F5 & F6 & F7 & F8 & F9). cbv zeta in F1, F2, F3, F4, F5, F6, F7, F8, F9.
  eexists. split; [reflexivity|]. split; [exact F3|]. split.
  - rewrite F6, An.
    assert (Rpower (/ a0 g l d) (k0 g) < Rpower (2 / (gamma g + 1)) (k0 g)) as LP by (apply Rlt_Rpower_l; lra).
    assert (nth d (momentum l) 0 = density l * speed l d) as En by (unfold speed; field; lra).
    assert (0 < speed l d) as Su.
    { assert (0 < density l * speed l d) by (rewrite <- En; apply (Rmult_lt_reg_l area); [exact Ha | lra]).
      apply (Rmult_lt_reg_l (density l)); lra. }
    assert (density l * speed l d = rest_density g l d * (speed l d * Rpower (/ a0 g l d) (k0 g))) as E1.
    { unfold rest_density. replace (density l * Rpower (a0 g l d) (k0 g) * (speed l d * Rpower (/ a0 g l d) (k0 g)))
        with (density l * speed l d * (Rpower (a0 g l d) (k0 g) * Rpower (/ a0 g l d) (k0 g))) by ring. rewrite W. ring. }
    rewrite Em, En, E1. apply Rmult_lt_compat_l; [exact Ha|]. apply Rmult_lt_compat_l; [exact RD|]. apply Rmult_lt_compat_l; assumption.
  - unfold total_enthalpy. rewrite F8, F9, An, (speed2_cross l d).
    assert (pressure l / density l < pressure l / density l * a0 g l d * (2 / (gamma g + 1))) as L1.
    { rewrite Rmult_assoc. rewrite <- (Rmult_1_r (pressure l / density l)) at 1. apply Rmult_lt_compat_l; [apply Rdiv_lt_0_compat; assumption|].
      apply (Rmult_lt_compat_l (a0 g l d)) in Lt; [|lra]. rewrite Rinv_r in Lt; lra. }
    assert (0 < gamma g / (gamma g - 1)) by (apply Rdiv_lt_0_compat; lra).
    apply Rplus_lt_compat_r. apply Rmult_lt_compat_l; assumption.
Qed.
Print Assumptions C132_supersonic_refuted.

(** A mass flow which no gas with this total enthalpy can have is not reported: the call always returns a state, with too small a mass flow. *)
Theorem C132_choked_refuted : forall g l m area d, perfect g -> admissible g l -> (d < length (momentum l))%nat -> 0 < area ->
  let v := speed l (Nat.modulo (d + 1) (length (momentum l))) in
  let u2 := speed l d * speed l d + v * v in
  let rho0 := density l * Rpower (1 + (gamma g - 1) / 2 * (u2 / (speed_of_sound l * speed_of_sound l))) (1 / (gamma g - 1)) in
  area * rho0 * sqrt (u2 + 2 / (gamma g - 1) * (speed_of_sound l * speed_of_sound l)) <= m ->
  exists q, Jirasek g l m area d = Ghost q /\
    (speed q d * speed q d + v * v <= speed_of_sound q * speed_of_sound q -> area * nth d (momentum q) 0 < m).
Proof.
  intros g l m area d Hg Hl Hd Ha v u2 rho0 H.
  destruct (j_facts g l d Hg Hl) as (G & Hr & Hp & Has & He & P & A0 & C0 & E0 & K & RD & RP & AL).
  set (c2 := speed_of_sound l * speed_of_sound l) in *. assert (0 < c2) as C by (apply Rmult_lt_0_compat; exact Has).
  assert (rho0 = rest_density g l d) as E1.
  { unfold rho0, rest_density, a0, k0. fold c2. change (planar l d (speed l d)) with u2. f_equal. f_equal. field. lra. }
  rewrite E1 in H. clearbody rho0.
  assert (u2 + 2 / (gamma g - 1) * c2 = / al g l d) as E2.
  { unfold al, c02. fold c2. change (planar l d (speed l d)) with u2. field. split; [|lra].
    assert (0 <= u2) by (unfold u2; nra). assert (0 <= (gamma g - 1) * u2) by (apply Rmult_le_pos; lra). lra. }
  rewrite E2 in H.
  assert (sqrt (/ al g l d) <= be g l d m area) as HB.
  { unfold be. apply (Rmult_le_reg_r (area * rest_density g l d)); [apply Rmult_lt_0_compat; assumption|].
    unfold Rdiv. rewrite Rmult_assoc, Rinv_l; [lra|]. apply Rgt_not_eq, Rmult_lt_0_compat; assumption. }
  assert (forall u, 0 < 1 - al g l d * planar l d u -> u * Rpower (1 - al g l d * planar l d u) (k0 g) < be g l d m area) as B.
  { intros u Hu. apply Rlt_le_trans with (2 := HB).
    assert (0 <= planar l d u) as Pu by apply P.
    assert (Rpower (1 - al g l d * planar l d u) (k0 g) <= 1) as R1.
    { apply Rle_trans with (Rpower 1 (k0 g)); [|rewrite Rpower_base_1; lra].
      apply Rle_Rpower_l; [lra|]. assert (0 <= al g l d * planar l d u) by (apply Rmult_le_pos; lra). lra. }
    pose proof (Rpower_pos (1 - al g l d * planar l d u) (k0 g)) as R0.
    assert (0 < sqrt (/ al g l d)) as SP by (apply sqrt_lt_R0, Rinv_0_lt_compat; exact AL).
    assert (Rabs u < sqrt (/ al g l d)) as Lu.
    { rewrite <- sqrt_Rsqr_abs. apply sqrt_lt_1_alt. unfold Rsqr. split; [nra|].
      assert (u * u <= planar l d u) as U1 by (unfold planar; nra).
      apply (Rmult_lt_reg_l (al g l d)); [exact AL|]. rewrite Rinv_r by lra.
      apply (Rmult_le_compat_l (al g l d)) in U1; lra. }
    destruct (Rle_dec u 0) as [Nu|Pu'].
    - assert (u * Rpower (1 - al g l d * planar l d u) (k0 g) <= 0); [|lra].
      assert (0 <= - u * Rpower (1 - al g l d * planar l d u) (k0 g)) by (apply Rmult_le_pos; lra). lra.
    - rewrite Rabs_right in Lu by lra. apply Rle_lt_trans with (2 := Lu).
      apply Rle_trans with (u * 1); [apply Rmult_le_compat_l; lra | lra]. }
  assert (forall u, the_f g l d m area u = NaN \/ the_f g l d m area u = NInf \/ exists v, the_f g l d m area u = Fin v /\ v <= newton_tolerance) as FB.
  { intros u. unfold the_f, jirasek_f. fold (planar l d u). unfold dpow.
    destruct (Rlt_dec 0 (1 - al g l d * planar l d u)) as [L|L].
    - right. right. cbn [dscale dadd]. eexists. split; [reflexivity|]. specialize (B u L). unfold newton_tolerance. lra.
    - destruct (Rlt_dec (1 - al g l d * planar l d u) 0); [left; reflexivity|].
      destruct (Rlt_dec 0 (k0 g)); [|lra]. right. right. cbn [dscale dadd]. eexists. split; [reflexivity|].
      assert (0 < sqrt (/ al g l d)) as SP by (apply sqrt_lt_R0, Rinv_0_lt_compat; exact AL). unfold newton_tolerance. lra. }
  destruct (newton_never_throws (the_f g l d m area) (the_Df g l d) (speed l d) newton_tolerance FB) as (u & EN).
  rewrite (jirasek_form g l d m area), EN. eexists. split; [reflexivity|].
  destruct (expanded_facts g l d Hg Hl Hd u) as (_ & _ & F3 & _). cbv zeta in F3. rewrite F3. intros S.
  apply (subcritical_iff g l d Hg Hl Hd u) in S.
  pose proof (the_f_value g l d m area Hg Hl u S) as FV. rewrite (jirasek_flow g l d m area Hg Hl Hd u Ha S _ FV).
  pose proof (an_positive g l d Hg Hl u) as AN. rewrite (an_subcritical g l d Hg Hl u S) in AN |- *. specialize (B u AN).
  assert (0 < area * rest_density g l d) as AR by (apply Rmult_lt_0_compat; assumption).
  apply Rlt_minus in B. apply (Rmult_lt_compat_l (area * rest_density g l d)) in B; [|exact AR]. lra.
Qed.
Print Assumptions C132_choked_refuted.

(** Every mass flow gives a state or an exception which can be caught: not so, a required flow against the direction ends the program if the gas is at rest. *)
Theorem C132_backflow_refuted : forall g l m area d, perfect g -> admissible g l -> (d < length (momentum l))%nat -> 0 < area ->
  speed l d = 0 ->
  let v := speed l (Nat.modulo (d + 1) (length (momentum l))) in
  v = 0 -> m < - / 10 ^ 7 * (area * density l) -> Jirasek g l m area d = Terminates.
Proof.
  intros g l m area d Hg Hl Hd Ha E v Ev Hm.
  destruct (j_facts g l d Hg Hl) as (G & Hr & Hp & Has & He & P & A0 & C0 & E0 & K & RD & RP & AL).
  assert (planar l d 0 = 0) as Z by (unfold planar, second; fold v; rewrite Ev; ring).
  assert (a0 g l d = 1) as A1 by (unfold a0; rewrite E, Z; unfold Rdiv; ring).
  assert (rest_density g l d = density l) as R1 by (unfold rest_density; rewrite A1, Rpower_base_1; ring).
  assert (newton_tolerance < - be g l d m area) as B.
  { unfold be, newton_tolerance. rewrite R1. assert (/ 10 ^ 7 = / 10000000) as T by (f_equal; ring). rewrite T in Hm.
    assert (0 < area * density l) as AD by (apply Rmult_lt_0_compat; assumption).
    apply (Rmult_lt_reg_r (area * density l)); [exact AD|].
    replace (- (m / (area * density l)) * (area * density l)) with (- m) by (field; split; lra). lra. }
  assert (the_f g l d m area 0 = Fin (- be g l d m area)) as F0.
  { unfold the_f, jirasek_f. fold (planar l d 0). rewrite Z, Rmult_0_r, Rminus_0_r. unfold dpow. destruct (Rlt_dec 0 1); [|lra].
    cbn [dscale dadd]. f_equal. ring. }
  assert (the_Df g l d 0 = Fin 1) as D0.
  { unfold the_Df, jirasek_Df. fold (planar l d 0). rewrite Z, Rmult_0_r, Rminus_0_r. unfold dpow. destruct (Rlt_dec 0 1); [|lra].
    cbn [dscale dadd]. f_equal. rewrite Rpower_base_1. ring. }
  rewrite (jirasek_form g l d m area), E. rewrite (newton_stuck _ _ 0 newton_tolerance _ F0); [reflexivity | unfold newton_tolerance; lra | exact B |].
  rewrite F0, D0. cbn [next_value]. destruct (Req_EM_T 1 0); [lra|]. cbn [next_x].
  destruct (Rlt_dec _ 0) as [L|L]; [lra|]. exfalso. apply L. unfold newton_tolerance in B. unfold Rdiv. rewrite Rinv_1. lra.
Qed.
Print Assumptions C132_backflow_refuted.

(** A gas with Mach number 1/2 in two dimensions and one with Mach number 2. *)
Definition planar_gas (u : R) : Complete := mkComplete (7 / 5) [7 / 5 * u; 0] (7 / 10 * (u * u) + 5 / 2) 1 1.
Lemma planar_admissible u : admissible air (planar_gas u).
Proof.
  split; [cbn; lra|]. split; [cbn; lra|]. split; [|split; cbn; lra]. cbn. unfold kinetic. cbn. field.
Qed.
Lemma planar_speed u : speed (planar_gas u) 0 = u.
Proof. unfold speed. cbn. field. Qed.
Lemma planar_second u : speed (planar_gas u) (Nat.modulo (0 + 1) (length (momentum (planar_gas u)))) = 0.
Proof. unfold speed. cbn. field. Qed.
Example C132_example :
  Jirasek air (planar_gas (1 / 2)) (7 / 10) 1 0 = Ghost (planar_gas (1 / 2)) /\
  (exists q, Jirasek air (planar_gas 2) (14 / 5) 1 0 = Ghost q /\ 14 / 5 < 1 * nth 0 (momentum q) 0) /\
  Jirasek air (planar_gas 0) (- (1)) 1 0 = Terminates /\
  (exists q, Jirasek air (planar_gas 0) 10 1 0 = Ghost q).
Proof.
  split; [|split; [|split]].
  - apply C132_consistent; [apply air_perfect | apply planar_admissible | cbn; lia | lra | cbn; lra |].
    cbv zeta. rewrite planar_speed, planar_second. cbn. lra.
  - destruct (C132_supersonic_refuted air (planar_gas 2) (14 / 5) 1 0 air_perfect (planar_admissible 2)) as (q & A & _ & B & _);
      [cbn; lia | lra | cbn; lra | lra | cbv zeta; rewrite planar_speed, planar_second; cbn; lra |]. exists q. split; assumption.
  - apply C132_backflow_refuted; [apply air_perfect | apply planar_admissible | cbn; lia | lra | apply planar_speed | apply planar_second | cbn; lra].
  - destruct (C132_choked_refuted air (planar_gas 0) 10 1 0 air_perfect (planar_admissible 0)) as (q & A & _); [cbn; lia | lra | | exists q; exact A].
    cbv zeta. rewrite planar_speed, planar_second. cbn [gamma air density planar_gas speed_of_sound].
    replace (1 + (7 / 5 - 1) / 2 * ((0 * 0 + 0 * 0) / (1 * 1))) with 1 by field. rewrite Rpower_base_1.
    replace (0 * 0 + 0 * 0 + 2 / (7 / 5 - 1) * (1 * 1)) with 5 by field.
    assert (sqrt 5 <= 3); [|lra]. apply Rle_trans with (sqrt (3 * 3)); [apply sqrt_le_1_alt; lra | rewrite sqrt_square; lra].
Qed.

(** ** C133: the plenum in front of the turbine (with Msq = 1) *)

(** The gas leaves the tube, whose pressure is not smaller: it has expanded to the pressure of the plenum without losses and keeps its velocity. *)
Theorem C133_outflow : forall eq pf Tf q, 1 < mgamma eq -> Msq eq = 1 -> 0 < y_density q -> 0 < y_pressure q -> 0 < pf ->
  pf <= y_pressure q -> 0 < mix_speed q ->
  let r := FlushState eq pf Tf q in
  y_pressure r = pf /\ isentrope (mgamma eq) (y_density r) pf = isentrope (mgamma eq) (y_density q) (y_pressure q) /\
  mix_speed r = mix_speed q /\ same_fractions (y_density r) (y_species r) (y_density q) (y_species q) /\ 0 < y_density r.
Proof.
  intros eq pf Tf q G M Hr Hp Hf H U r. destruct (flush_out eq pf Tf q G M Hr Hp Hf H U) as (A & B & C & D & _ & E).
  split; [exact A|]. split; [exact B|]. split; [exact C|]. split; [exact D | exact E].
Qed.
Print Assumptions C133_outflow.

(** The gas in the tube does not move towards the plenum although its pressure is not smaller: the ghost state is at rest. *)
Theorem C133_rest : forall eq pf Tf q, 1 < mgamma eq -> Msq eq = 1 -> 0 < y_density q -> 0 < y_pressure q -> 0 < pf ->
  pf <= y_pressure q -> mix_speed q <= 0 ->
  let r := FlushState eq pf Tf q in
  y_pressure r = pf /\ isentrope (mgamma eq) (y_density r) pf = isentrope (mgamma eq) (y_density q) (y_pressure q) /\
  mix_speed r = 0 /\ same_fractions (y_density r) (y_species r) (y_density q) (y_species q) /\ 0 < y_density r.
Proof.
  intros eq pf Tf q G M Hr Hp Hf H U r. destruct (flush_rest eq pf Tf q G M Hr Hp Hf H U) as (A & B & C & D & _ & E).
  split; [exact A|]. split; [exact B|]. split; [exact C|]. split; [exact D | exact E].
Qed.
Print Assumptions C133_rest.

(** The gas leaves the tube against a higher pressure: it is compressed without losses and slows down so that the total enthalpy is kept, or comes to rest if it is too slow
    for that. *)
Theorem C133_against : forall eq pf Tf q, 1 < mgamma eq -> Msq eq = 1 -> 0 < y_density q -> 0 < y_pressure q -> 0 < pf ->
  y_pressure q < pf -> 0 < mix_speed q ->
  let r := FlushState eq pf Tf q in
  y_pressure r = pf /\ isentrope (mgamma eq) (y_density r) pf = isentrope (mgamma eq) (y_density q) (y_pressure q) /\
  0 <= mix_speed r /\ 0 < y_density r /\ same_fractions (y_density r) (y_species r) (y_density q) (y_species q) /\
  (total_enthalpy (mgamma eq) (y_density r) 0 pf <= total_enthalpy (mgamma eq) (y_density q) (mix_speed q * mix_speed q) (y_pressure q) ->
     total_enthalpy (mgamma eq) (y_density r) (mix_speed r * mix_speed r) pf =
     total_enthalpy (mgamma eq) (y_density q) (mix_speed q * mix_speed q) (y_pressure q)) /\
  (total_enthalpy (mgamma eq) (y_density q) (mix_speed q * mix_speed q) (y_pressure q) <= total_enthalpy (mgamma eq) (y_density r) 0 pf -> mix_speed r = 0).
Proof.
  intros eq pf Tf q G M Hr Hp Hf H U r. destruct (flush_against eq pf Tf q G M Hr Hp Hf H U) as (A & B & C & D & E & F & I & _ & J).
  cbv zeta in D, E. fold r in A, B, C, D, E, F, I, J.
  split; [exact A|]. split; [exact B|]. split; [exact C|]. split; [exact J|]. split; [exact I|].
  rewrite <- F in D, E. unfold total_enthalpy in *. split; intros X; [apply D | apply E]; lra.
Qed.
Print Assumptions C133_against.

(** Gas flows out of the plenum into the tube: it has expanded to the pressure of the tube without losses.  Its total enthalpy is that of the plenum (at rest with the temperature Tf)
    only if the gas in the tube has the temperature of the expanded gas. *)
Theorem C133_inflow_partial : forall eq pf Tf q, 1 < mgamma eq -> Msq eq = 1 -> 0 < y_density q -> 0 < y_pressure q -> 0 < pf -> 0 < Tf ->
  y_pressure q < pf -> mix_speed q <= 0 ->
  let r := FlushState eq pf Tf q in
  y_pressure r = y_pressure q /\ isentrope (mgamma eq) (y_density r) (y_pressure q) = isentrope (mgamma eq) (pf / Tf) pf /\
  mix_speed r <= 0 /\ 0 < y_density r /\ same_fractions (y_density r) (y_species r) (y_density q) (y_species q) /\
  (total_enthalpy (mgamma eq) (y_density r) (mix_speed r * mix_speed r) (y_pressure r) = total_enthalpy (mgamma eq) (pf / Tf) 0 pf <->
   y_pressure q / y_density q = y_pressure r / y_density r).
Proof.
  intros eq pf Tf q G M Hr Hp Hf HT H U r. destruct (flush_in eq pf Tf q G M Hr Hp Hf HT H U) as (A & B & C & D & T1 & E & F & I & _ & J).
  fold r in A, B, C, D, E, F, I, J. set (Tr := pf / y_pressure q / Rpower (pf / y_pressure q) (1 / mgamma eq)) in *. clearbody Tr.
  split; [exact A|]. split; [exact B|]. split; [exact C|]. split; [exact J|]. split; [exact I|].
  rewrite A. unfold total_enthalpy. rewrite F, E. replace (pf / (pf / Tf)) with Tf by (field; split; lra).
  assert (0 < mgamma eq / (mgamma eq - 1)) as K by (apply Rdiv_lt_0_compat; lra). set (k := mgamma eq / (mgamma eq - 1)) in *. clearbody k.
  set (T := y_pressure q / y_density q). clearbody T.
  assert (k * (Tf / Tr) + 2 * k * (Tr - 1) * T / 2 - (k * Tf + 0 / 2) = k * (Tr - 1) * (T - Tf / Tr)) as X by (field; lra).
  assert (0 < k * (Tr - 1)) as Y by (apply Rmult_lt_0_compat; lra). split; intros Z.
  - assert (k * (Tr - 1) * (T - Tf / Tr) = 0) as W by lra. apply Rmult_integral in W as [W|W]; lra.
  - replace (T - Tf / Tr) with 0 in X by lra. rewrite Rmult_0_r in X. lra.
Qed.
Print Assumptions C133_inflow_partial.

(** The passive scalars are not scaled with the density: their values per mass change. *)
Theorem C133_scalars_refuted : exists eq pf Tf q, 1 < mgamma eq /\ Msq eq = 1 /\ 0 < y_density q /\ 0 < y_pressure q /\ 0 < pf < y_pressure q /\ 0 < mix_speed q /\
  ~ same_fractions (y_density (FlushState eq pf Tf q)) (y_scalars (FlushState eq pf Tf q)) (y_density q) (y_scalars q).
Proof.
  set (eq := mkMixGas 2 1). set (q := mkMixture 1 [1] (1 / 2 + 4) [1] [1] 4 (sqrt 8)).
  exists eq, 1, 1, q. assert (0 < mix_speed q) as U by (unfold mix_speed; cbn; lra).
  split; [cbn; lra|]. split; [reflexivity|]. split; [cbn; lra|]. split; [cbn; lra|]. split; [cbn; lra|]. split; [exact U|].
  destruct (flush_out eq 1 1 q ltac:(cbn; lra) eq_refl ltac:(cbn; lra) ltac:(cbn; lra) ltac:(lra) ltac:(cbn; lra) U) as (_ & _ & _ & _ & S & P).
  cbv zeta in S, P. intros [_ H]. specialize (H 0%nat). rewrite S in H.
  assert (y_density (FlushState eq 1 1 q) = Rpower (1 / 4) (1 / 2)) as D.
  { unfold FlushState. cbv zeta. cbn [y_pressure y_density y_momentum nth q eq mgamma Msq]. destruct (Rlt_dec 4 1); [lra|].
    destruct (Rle_dec (1 / 1) 0); [lra|]. cbn [MixFromCons y_density]. ring. }
  rewrite D in H. cbn in H. assert (Rpower (1 / 4) (1 / 2) < 1) as L.
  { apply Rlt_le_trans with (Rpower 1 (1 / 2)); [apply Rlt_Rpower_l; lra | rewrite Rpower_base_1; lra]. }
  pose proof (Rpower_pos (1 / 4) (1 / 2)) as L0. set (x := Rpower (1 / 4) (1 / 2)) in *. clearbody x.
  apply (f_equal (fun t => t * x)) in H. unfold Rdiv in H. rewrite Rmult_assoc, Rinv_l in H; lra.
Qed.
Print Assumptions C133_scalars_refuted.

(** Examples for the four cases: hot gas in front of a plenum. *)
Definition tube (u p : R) : mixture := mkMixture 1 [u] (1 / 2 * (u * u) + p) [1 / 4; 3 / 4] [] p (sqrt (2 * p)).
Example C133_example :
  let eq := mkMixGas 2 1 in
  1 < mgamma eq /\ Msq eq = 1 /\
  y_pressure (FlushState eq 1 2 (tube 3 4)) = 1 /\ mix_speed (FlushState eq 1 2 (tube 3 4)) = 3 /\
  mix_speed (FlushState eq 1 2 (tube (- (3)) 4)) = 0 /\
  y_pressure (FlushState eq 4 2 (tube 3 1)) = 4 /\ y_pressure (FlushState eq 4 2 (tube (- (3)) 1)) = 1 /\
  mix_speed (FlushState eq 4 2 (tube (- (3)) 1)) <= 0.
Proof.
  intros eq.
  assert (forall u p, mix_speed (tube u p) = u) as S by (intros u p; unfold mix_speed; cbn; field).
  split; [cbn; lra|]. split; [reflexivity|].
  destruct (C133_outflow eq 1 2 (tube 3 4)) as (A1 & _ & A2 & _); try (cbn; lra); try (rewrite S; lra).
  destruct (C133_rest eq 1 2 (tube (- (3)) 4)) as (_ & _ & B2 & _); try (cbn; lra); try (rewrite S; lra).
  destruct (C133_against eq 4 2 (tube 3 1)) as (C1 & _); try (cbn; lra); try (rewrite S; lra).
  destruct (C133_inflow_partial eq 4 2 (tube (- (3)) 1)) as (D1 & _ & D2 & _); try (cbn; lra); try (rewrite S; lra).
  split; [exact A1|]. split; [rewrite A2; apply S|]. split; [exact B2|]. split; [exact C1|]. split; [exact D1 | exact D2].
Qed.

(** The total enthalpy of the gas which flows out of the plenum is that of the plenum: not so, if the gas in the tube is colder than the expanded gas, the gas is too slow. *)
Theorem C133_enthalpy_refuted : exists eq pf Tf q, 1 < mgamma eq /\ Msq eq = 1 /\ 0 < y_density q /\ 0 < y_pressure q < pf /\ 0 < Tf /\ mix_speed q <= 0 /\
  let r := FlushState eq pf Tf q in
  total_enthalpy (mgamma eq) (y_density r) (mix_speed r * mix_speed r) (y_pressure r) < total_enthalpy (mgamma eq) (pf / Tf) 0 pf.
Proof.
  set (eq := mkMixGas 2 1). exists eq, 4, 8, (tube 0 1).
  assert (mix_speed (tube 0 1) = 0) as S by (unfold mix_speed; cbn; field).
  split; [cbn; lra|]. split; [reflexivity|]. split; [cbn; lra|]. split; [cbn; lra|]. split; [lra|]. split; [lra|].
  intros r. destruct (flush_in eq 4 8 (tube 0 1)) as (A & _ & _ & _ & T1 & E & F & _); try (cbn; lra).
  fold r in A, E, F. rewrite A. unfold total_enthalpy. rewrite E, F. cbn [y_pressure y_density tube mgamma eq] in *.
  assert (Rpower (4 / 1) (1 / 2) = 2) as Q.
  { replace (1 / 2) with (/ 2) by lra. rewrite Rpower_sqrt by lra. replace (4 / 1) with (2 * 2) by lra. apply sqrt_square. lra. }
  rewrite Q. lra.
Qed.
Print Assumptions C133_enthalpy_refuted.

(** The pressure of the gas is the pressure of the plenum for every Mach number of reference: not so, the kinetic energy is not scaled. *)
Theorem C133_reference_refuted : exists eq pf Tf q, 1 < mgamma eq /\ 0 < Msq eq /\ 0 < y_density q /\ 0 < pf <= y_pressure q /\ 0 < mix_speed q /\
  y_pressure (FlushState eq pf Tf q) <> pf.
Proof.
  set (eq := mkMixGas 2 (1 / 2)). exists eq, 1, 1, (tube 1 1).
  split; [cbn; lra|]. split; [cbn; lra|]. split; [cbn; lra|]. split; [cbn; lra|]. split; [unfold mix_speed; cbn; lra|].
  unfold FlushState. cbv zeta. cbn [y_pressure y_density y_momentum nth tube eq mgamma Msq]. destruct (Rlt_dec 1 1); [lra|].
  destruct (Rle_dec (1 / 1) 0); [lra|]. replace (1 / 1) with 1 by field. rewrite Rpower_base_1.
  unfold MixFromCons, KineticEnergy, squaredNorm, mix_inv. cbn [y_pressure dot mgamma Msq]. intros H.
  change (mgamma eq) with 2 in H. change (Msq eq) with (1 / 2) in H.
  match type of H with ?x = _ => assert (x = 5 / 4) as X by field end. lra.
Qed.
Print Assumptions C133_reference_refuted.
