(** C89: chemistry of the reactor, C90: completion of conservative states. *)
From Coq Require Import String List Reals Lra Lia Bool.
From Verif Require Import EnergyModel EnergySpec EnergyProperties ReactorModel ReactorSpec ReactorProofs ReactorProofs3 ReactorProofs4.
Import ListNotations.
Local Open Scope R_scope.

(** ** C89 *)

(** C89 (rates): the temperature changes so that the internal energy at constant volume does not: the energy of the species that are
    produced plus the heat is zero *)
Theorem C89_rates_conserve_energy :
  forall m rho T c, well_formed m -> length c = length (molarMasses m) -> nonneg c -> 0 < rho -> mass_density (molarMasses m) c = rho ->
    heat_density (gasConstant m) (molarMasses m) (snd (ThermoData m T)) c <> 0 ->
    let '(dT, dc) := OdeRhsAdvance m rho (fst (ThermoData m T)) (snd (ThermoData m T)) T c in
    dc = ProductionRates m c T (total c * gasConstant m * T) /\
    energy_density (gasConstant m) (molarMasses m) (fst (ThermoData m T)) T dc +
    heat_density (gasConstant m) (molarMasses m) (snd (ThermoData m T)) c * dT = 0.
Proof.
  intros m rho T c W L N P E H. destruct (OdeRhsAdvance _ _ _ _ _ _) as [dT dc] eqn:F.
  destruct (rhs_T m rho T c W L P E (conc_pos m c rho L N E P) H) as [_ K]. rewrite F in K. cbn [fst snd] in K.
  pose proof (rates_of m rho (fst (ThermoData m T)) (snd (ThermoData m T)) T c) as Q. rewrite F, accumulate_total in Q. split; [exact Q|]. lra.
Qed.

Print Assumptions C89_rates_conserve_energy.

(** C89 (solutions): along every solution of the equations mass and internal energy per volume are constant *)
Theorem C89_solutions_conserve :
  forall m rho dt T c, well_formed m -> conserves_mass m -> consistent_data m -> solves m rho dt T c ->
    0 < rho -> mass_density (molarMasses m) (c 0) = rho ->
    (forall t, 0 <= t <= dt -> nonneg (c t) /\ heat_density (gasConstant m) (molarMasses m) (snd (ThermoData m (T t))) (c t) <> 0) ->
    forall t, 0 <= t <= dt ->
      mass_density (molarMasses m) (c t) = rho /\
      energy_density (gasConstant m) (molarMasses m) (fst (ThermoData m (T t))) (T t) (c t) =
      energy_density (gasConstant m) (molarMasses m) (fst (ThermoData m (T 0))) (T 0) (c 0).
Proof.
  intros m rho dt T c W K C H P M0 Q t Ht. split.
  - rewrite (mass_constant m rho dt T c H K t Ht). exact M0.
  - apply (energy_constant m rho dt T c); assumption.
Qed.

Print Assumptions C89_solutions_conserve.

(** A flame: the first species turns into the second and heats the gas from 300 to 310 *)
Example C89_example :
  well_formed isomers /\ conserves_mass isomers /\ consistent_data isomers /\ solves isomers 1 1 (iso_T 300) iso_c /\
  mass_density (molarMasses isomers) (iso_c 0) = 1 /\
  (forall t, 0 <= t <= 1 -> nonneg (iso_c t) /\
     heat_density (gasConstant isomers) (molarMasses isomers) (snd (ThermoData isomers (iso_T 300 t))) (iso_c t) <> 0) /\
  iso_c 1 <> iso_c 0 /\ 300 < iso_T 300 1.
Proof.
  assert (0 < exp (Ropp 1)) by apply exp_pos. assert (exp (Ropp 1) < 1) by (apply Rlt_le_trans with (exp 0); [apply exp_increasing; lra|rewrite exp_0; lra]).
  split; [exact iso_wf|]. split; [exact iso_mass|]. split; [exact iso_data|]. split; [apply iso_solves|]. split; [|split; [|split]].
  - unfold mass_density, over, entry, iso_c. cbn. ring.
  - intros t Ht. apply (iso_conditions 300). lra.
  - intros E. injection E as E _. rewrite Ropp_0, exp_0 in E. lra.
  - unfold iso_T. lra.
Qed.

(** C89 (source term): with a solver that follows a solution, the chemistry of a cell keeps density, momentum and the sum of the species;
    the species are those of the solution.  The energy differs by the enthalpy between the temperature of the last evaluation of the
    right-hand side and the final temperature, so it is kept if the solver evaluates at the final temperature last. *)
Theorem C89_source_term :
  forall m solver dt r s T c evals, well_formed m -> conserves_mass m -> consistent_data m ->
    (** the reactor has been used in any way before *)
    cached m r -> length (massFractions r) = length (molarMasses m) ->
    (** the cell is consistent *)
    length (c_species s) = length (molarMasses m) -> nonneg (c_species s) -> 0 < c_density s -> total (c_species s) = c_density s ->
    (forall i, (i < length (molarMasses m))%nat -> entry (c 0) i * entry (molarMasses m) i = entry (c_species s) i) ->
    T 0 = c_temperature s ->
    c_energy s = energy_density (gasConstant m) (molarMasses m) (fst (ThermoData m (T 0))) (T 0) (c 0) +
      c_momentum s * c_momentum s / (2 * c_density s) ->
    (** the solver follows the solution *)
    0 < dt -> solves m (c_density s) dt T c ->
    (forall t, 0 <= t <= dt -> nonneg (c t) /\ heat_density (gasConstant m) (molarMasses m) (snd (ThermoData m (T t))) (c t) <> 0) ->
    solver dt (c_density s) (T 0, c 0) = (evals, (T dt, c dt)) ->
    let s' := snd (kinetic_cell m solver dt r s) in
    c_density s' = c_density s /\ c_momentum s' = c_momentum s /\ c_temperature s' = T dt /\ total (c_species s') = c_density s /\
    (forall i, (i < length (molarMasses m))%nat -> entry (c_species s') i = entry (c dt) i * entry (molarMasses m) i) /\
    c_energy s' - c_energy s = over (length (molarMasses m)) (fun i => entry (c_species s') i *
      (entry (fst (ThermoData m (last evals (T 0)))) i - entry (fst (ThermoData m (T dt))) i)) /\
    (last evals (T 0) = T dt -> c_energy s' = c_energy s).
Proof.
  intros m solver dt r s T c evals W K C Hc L Ls Ns P Et E0 ET EE Hdt Hs Q Hsol s'.
  assert (length (c 0) = length (molarMasses m)) as L0 by (apply (Hs 0); lra).
  assert (length (c dt) = length (molarMasses m)) as L1 by (apply (Hs dt); lra).
  destruct (source_cell m solver dt r s T c evals (c_density s)) as (A1 & A2 & A3 & A4 & A5 & A6); try assumption; try reflexivity; [apply W|intros; apply W|].
  fold s' in A1, A2, A3, A4, A5, A6.
  assert (mass_density (molarMasses m) (c 0) = c_density s) as M0.
  { unfold mass_density. rewrite (over_ext _ _ (entry (c_species s)) E0). rewrite <- Ls, <- total_over. exact Et. }
  destruct (C89_solutions_conserve m (c_density s) dt T c W K C Hs P M0 Q dt ltac:(lra)) as [M1 E1].
  assert (c_energy s' - c_energy s = over (length (molarMasses m)) (fun i => entry (c_species s') i *
      (entry (fst (ThermoData m (last evals (T 0)))) i - entry (fst (ThermoData m (T dt))) i))) as D.
  { rewrite A6, EE, <- E1. unfold energy_density.
    match goal with |- over ?n ?f + ?x - (over ?n ?g + ?y) = _ => replace (over n f + x - (over n g + y)) with (over n f - over n g) by (field; lra) end.
    rewrite <- over_minus. apply over_ext. intros i Hi. rewrite (A5 i Hi). ring. }
  repeat (split; [assumption|]). split; [|split; [assumption|split; [exact D|]]].
  - rewrite total_over, A4. rewrite (over_ext _ _ _ A5). exact M1.
  - intros X. rewrite X in D. rewrite (over_ext _ _ (fun i => 0 * 0)) in D by (intros; ring). rewrite over_scale in D. lra.
Qed.

Print Assumptions C89_source_term.

(** C89 (energy), refuted in general: after a step the energy is computed with the enthalpies of the last evaluation of the right-hand
    side; for a solver which is exact but evaluated the right-hand side elsewhere the energy of the cell changes *)
Theorem C89_stale_energy_refuted :
  exists m solver r s T c, well_formed m /\ conserves_mass m /\ consistent_data m /\ cached m r /\
    length (massFractions r) = length (molarMasses m) /\ total (c_species s) = c_density s /\ 0 < c_density s /\
    solves m (c_density s) 1 T c /\ solver 1 (c_density s) (c_temperature s, c 0) = ([c_temperature s], (T 1, c 1)) /\
    (forall i, (i < length (molarMasses m))%nat -> entry (c 0) i * entry (molarMasses m) i = entry (c_species s) i) /\
    c_energy s = energy_density (gasConstant m) (molarMasses m) (fst (ThermoData m (T 0))) (T 0) (c 0) +
      c_momentum s * c_momentum s / (2 * c_density s) /\
    c_energy (snd (kinetic_cell m solver 1 r s)) <> c_energy s.
Proof.
  set (s := mkCell 1 0 310 [1; 0] 300).
  exists isomers, (fun dt _ y => ([fst y], (iso_T (fst y) dt, iso_c dt))), (construct isomers), s, (iso_T 300), iso_c.
  assert (iso_c 0 = [1; 0]) as E0 by (unfold iso_c; rewrite Ropp_0, exp_0; f_equal; f_equal; lra).
  assert (iso_T 300 0 = 300) as T0 by (unfold iso_T; rewrite Ropp_0, exp_0; lra).
  assert (cached isomers (construct isomers)) as Hc by apply cached_construct.
  assert (length (massFractions (construct isomers)) = 2%nat) as HL.
  { unfold construct, SetPressure, SetDensity, SetTemperature. cbn [massFractions]. destruct (update_keeps isomers 300 (mkReactor [1; 0] (moles_of isomers 0 [1; 0]) 300 0 [0; 0] [0; 0] 0)) as (B & _).
    cbn [molarMasses isomers map]. unfold UpdateMolesFromMassFractions. cbn [massFractions moles temperature density enthalpies heat_capacities thermoTemp]. rewrite B. reflexivity. }
  assert (c_energy s = energy_density (gasConstant isomers) (molarMasses isomers) (fst (ThermoData isomers (iso_T 300 0))) (iso_T 300 0) (iso_c 0) +
      c_momentum s * c_momentum s / (2 * c_density s)) as EE.
  { rewrite T0, E0. unfold energy_density, over, entry, s. cbn. field. }
  assert (forall i, (i < 2)%nat -> entry (iso_c 0) i * entry [1; 1] i = entry (c_species s) i) as EC.
  { rewrite E0. intros [|[|i]] Hi; [unfold entry, s; cbn; ring|unfold entry, s; cbn; ring|lia]. }
  split; [exact iso_wf|]. split; [exact iso_mass|]. split; [exact iso_data|]. split; [exact Hc|]. split; [exact HL|].
  split; [unfold s; cbn; lra|]. split; [unfold s; cbn; lra|]. split; [apply iso_solves|]. split; [reflexivity|]. split; [exact EC|]. split; [exact EE|].
  destruct (C89_source_term isomers (fun dt _ y => ([fst y], (iso_T (fst y) dt, iso_c dt))) 1 (construct isomers) s (iso_T 300) iso_c [300]) as (_ & _ & _ & _ & F & G & _).
  - exact iso_wf.
  - exact iso_mass.
  - exact iso_data.
  - exact Hc.
  - exact HL.
  - reflexivity.
  - intros x I. unfold s in I. cbn in I. destruct I as [<- |[<- |[]]]; lra.
  - unfold s. cbn. lra.
  - unfold s. cbn. lra.
  - exact EC.
  - rewrite T0. reflexivity.
  - exact EE.
  - lra.
  - apply iso_solves.
  - intros t Ht. apply (iso_conditions 300). lra.
  - cbn [fst snd]. rewrite T0. reflexivity.
  - set (s' := snd _) in *. cbn [molarMasses isomers length] in F, G. unfold over in G. cbn [seq map total last] in G. rewrite !F in G by lia.
    intros X. rewrite X in G. unfold entry, iso_c, iso_T in G. cbn in G.
    assert (0 < exp (Ropp 1)) by apply exp_pos. assert (exp (Ropp 1) < 1) by (apply Rlt_le_trans with (exp 0); [apply exp_increasing; lra|rewrite exp_0; lra]).
    lra.
Qed.

Print Assumptions C89_stale_energy_refuted.

(** C89 (data): after any history of calls, setting a temperature T gives the internal energy of the composition at T; and as long as
    the reactor was not advanced, the energy is always that of its composition and temperature *)
Theorem C89_cache :
  forall m ops, (forall T, length (fst (ThermoData m T)) = length (molarMasses m)) ->
    let r := fold_left (perform m) ops (construct m) in
    length (massFractions r) = length (molarMasses m) ->
    let energy T := over (length (molarMasses m)) (fun i => entry (massFractions r) i *
      (entry (fst (ThermoData m T)) i - gasConstant m * T / entry (molarMasses m) i)) in
    (forall T, GetInternalEnergy m (SetTemperature m T r) = energy T) /\
    (forallb (fun o => negb (is_advance o)) ops = true -> GetInternalEnergy m r = energy (temperature r)).
Proof.
  intros m ops HT r L energy. destruct (cached_construct m) as (C & K1 & K2).
  assert (cached m r) as Cr by (apply cached_run; exact C). split.
  - intros T. unfold SetTemperature. set (q := mkReactor _ _ T _ _ _ _). destruct (cached_update m T q Cr) as [A B]. destruct (update_keeps m T q) as (B1 & _ & B3 & _).
    rewrite energy_of; [|exact A|rewrite B, B3; reflexivity|rewrite B1; exact L|apply HT]. rewrite B1, B3. reflexivity.
  - intros F. apply energy_of; [exact Cr| |exact L|apply HT]. apply cached_run_T; [exact C|congruence|exact F].
Qed.

Print Assumptions C89_cache.

Example C89_cache_example :
  length (massFractions (fold_left (perform isomers) [op_temperature 400; op_fractions [1; 3]; op_density 2] (construct isomers))) = 2%nat /\
  forallb (fun o => negb (is_advance o)) [op_temperature 400; op_fractions [1; 3]; op_density 2] = true.
Proof.
  split; [|reflexivity]. cbn [fold_left perform]. unfold SetDensity at 1, SetMassFractions. cbn [massFractions UpdateMolesFromMassFractions with_fractions].
  assert (length (massFractions (SetTemperature isomers 400 (construct isomers))) = 2%nat) as E.
  { unfold SetTemperature at 1. match goal with |- context [UpdateThermoState _ _ ?q] => destruct (update_keeps isomers 400 q) as (B & _) end. rewrite B. cbn [massFractions].
    unfold construct, SetPressure, SetDensity, SetTemperature. cbn [massFractions].
    match goal with |- context [UpdateThermoState _ _ ?q] => destruct (update_keeps isomers 300 q) as (B' & _) end. rewrite B'. reflexivity. }
  destruct (Req_EM_T _ 0); [|rewrite map_length]; rewrite app_length, skipn_length, E; reflexivity.
Qed.

(** C89 (ignition), refuted: AdvanceAndFindMaxdT does not return the time of the steepest rise: all rises are measured from the first
    temperature, so that a nearly flat interval at the end wins *)
Theorem C89_maxdT_refuted :
  exists T0 T1 T2, 0 < T0 /\ T0 < T1 /\ T1 < T2 /\ (T2 - T1) / (2 - 1) < (T1 - T0) / (1 - 0) /\ FindMaxdT T0 [(T1, 1); (T2, 2)] = 2.
Proof.
  exists 300, 400, 410. do 4 (split; [lra|]). unfold FindMaxdT. cbn [fold_left].
  destruct (Rlt_dec (-9000) ((300 - 400) / (0 - 1))); [|lra]. destruct (Rlt_dec _ ((300 - 410) / (1 - 2))); [reflexivity|lra].
Qed.

Print Assumptions C89_maxdT_refuted.

(** C89 (ignition), refuted: unlike Advance, AdvanceAndFindMaxdT starts with concentrations that do not belong to the density of the
    reactor if the density was set after the composition: even a solver that does nothing changes the sum of the mass fractions *)
Theorem C89_maxdT_density_refuted :
  exists m r rho dt, 0 < rho /\ 0 < dt /\ total (massFractions r) = 1 /\
    let idle : ode_solver := fun _ _ y => ([], y) in
    total (massFractions (Advance m idle dt (SetDensity rho r))) = 1 /\
    total (massFractions (AdvanceAndFindMaxdT m idle dt (SetDensity rho r))) = 1 / 2.
Proof.
  exists isomers, (mkReactor [1; 0] [1; 0] 300 1 [610; 600] [2; 2] 300), 2, 1. split; [lra|]. split; [lra|]. split; [cbn; lra|]. cbv zeta. split.
  - unfold Advance. destruct (Req_EM_T 1 0); [lra|]. cbn. lra.
  - cbn. lra.
Qed.

Print Assumptions C89_maxdT_density_refuted.

(** ** C90 *)

Lemma consistent_energy m (Y : list R) : consistent_data m ->
  forall T, derivable_pt_lim (fun x => over (length (molarMasses m)) (fun i => entry Y i * (entry (fst (ThermoData m x)) i - gasConstant m * x / entry (molarMasses m) i))) T
    (over (length (molarMasses m)) (fun i => entry Y i * (entry (snd (ThermoData m T)) i - gasConstant m / entry (molarMasses m) i))).
Proof.
  intros C T. apply (derivable_over _ (fun i x => entry Y i * (entry (fst (ThermoData m x)) i - gasConstant m * x / entry (molarMasses m) i))
    (fun i => entry Y i * (entry (snd (ThermoData m T)) i - gasConstant m / entry (molarMasses m) i))). intros i Hi.
  apply (derivable_pt_lim_scal (fun x => entry (fst (ThermoData m x)) i - gasConstant m * x / entry (molarMasses m) i)).
  apply (derivable_pt_lim_minus (fun x => entry (fst (ThermoData m x)) i) (fun x => gasConstant m * x / entry (molarMasses m) i)); [apply C; exact Hi|].
  eapply derivable_pt_lim_ext with (f := fun x => gasConstant m / entry (molarMasses m) i * x); [intros x; unfold Rdiv; ring|].
  assert (derivable_pt_lim (fun x => gasConstant m / entry (molarMasses m) i * x) T (gasConstant m / entry (molarMasses m) i * 1)) as D
    by (apply (derivable_pt_lim_scal id), derivable_pt_lim_id). rewrite Rmult_1_r in D. exact D.
Qed.

Lemma read_energy m r T : cached m r -> length (massFractions r) = length (molarMasses m) ->
  (forall T, length (fst (ThermoData m T)) = length (molarMasses m) /\ length (snd (ThermoData m T)) = length (molarMasses m)) ->
  all_pos (molarMasses m) ->
  GetInternalEnergy m (SetTemperature m T r) =
    over (length (molarMasses m)) (fun i => entry (massFractions r) i * (entry (fst (ThermoData m T)) i - gasConstant m * T / entry (molarMasses m) i)) /\
  (divided (massFractions r) (molarMasses m) <> 0 -> GetCv m (SetTemperature m T r) =
    over (length (molarMasses m)) (fun i => entry (massFractions r) i * (entry (snd (ThermoData m T)) i - gasConstant m / entry (molarMasses m) i))).
Proof.
  intros C L HT HM. unfold SetTemperature. set (q := mkReactor _ _ T _ _ _ _).
  assert (cached m q) as Cq by exact C. destruct (cached_update m T q Cq) as [A B]. destruct (update_keeps m T q) as (B1 & _ & B3 & _).
  change (temperature q) with T in B3. change (massFractions q) with (massFractions r) in B1. split.
  - rewrite energy_of; [|exact A|congruence|rewrite B1; exact L|apply HT]. rewrite B1, B3. reflexivity.
  - intros D. unfold GetCv, GetCp, MeanY, GetMeanMolarMass. rewrite fold_weighted, fold_divided. destruct A as [_ A]. rewrite A, B, B1, !Rplus_0_l.
    rewrite weighted_over by (rewrite L; apply HT). replace (gasConstant m / (1 / divided (massFractions r) (molarMasses m))) with (gasConstant m * divided (massFractions r) (molarMasses m)) by (field; exact D).
    rewrite divided_over by exact L. rewrite L, <- over_scale, <- over_minus. apply over_ext. intros i _. unfold Rdiv. ring.
Qed.

(** C90: completing a conservative state (density, momentum, energy, partial densities that sum to the density) succeeds and keeps density,
    momentum and partial densities; the temperature is the one that has the internal energy, to the tolerance of the iteration; the energy
    is replaced by the energy of this temperature, an error of at most the energy of 1e-5 K or of 1e-11 of the internal energy *)
Theorem C90_completion :
  forall m r rho momentum energy species cmin cmax Ts, well_formed m -> consistent_data m -> cached m r ->
    length (massFractions r) = length (molarMasses m) ->
    0 < rho -> length species = length (molarMasses m) -> nonneg species -> total species = rho ->
    (** internal energy and heat capacity of the mixture *)
    let u T := over (length (molarMasses m)) (fun i => entry species i / rho * (entry (fst (ThermoData m T)) i - gasConstant m * T / entry (molarMasses m) i)) in
    let cv T := over (length (molarMasses m)) (fun i => entry species i / rho * (entry (snd (ThermoData m T)) i - gasConstant m / entry (molarMasses m) i)) in
    0 < cmin -> cmax <= 10 * cmin -> (forall T, cmin <= cv T <= cmax) ->
    let e := (energy - momentum * momentum / (2 * rho)) / rho in
    u Ts = e -> Rabs (Ts - 300) <= 50000 ->
    exists s', CompleteFromCons m rho momentum energy species r = Some s' /\
      c_density s' = rho /\ c_momentum s' = momentum /\ c_species s' = species /\
      right_temperature u cmax e Ts (1 / 1000000) (c_temperature s') /\
      c_energy s' = rho * u (c_temperature s') + momentum * momentum / (2 * rho) /\
      Rabs (c_energy s' - energy) <= rho * Rmax (cmax / 100000) (1 / 100000000000 * Rmax (Rabs e) (Rmax cmax (1 / 100000) / 1000000)).
Proof.
  intros m r rho mom energy species cmin cmax Ts (HM & HT & HP) C Hc L Hrho Ls Ns Et u cv Hc1 Hc2 Hcv e Hu Hd.
  unfold CompleteFromCons. set (r1 := SetMassFractions m species (SetDensity rho r)).
  assert (massFractions r1 = map (fun y => y / rho) species) as EY.
  { unfold r1. rewrite set_fractions by (cbn; congruence). rewrite clip_id by exact Ns. rewrite Et. destruct (Req_EM_T rho 0); [lra|]. reflexivity. }
  assert (cached m r1) as C1 by exact Hc.
  set (r2 := SetTemperature m 300 r1).
  assert (cached m r2 /\ temperature r2 = 300 /\ massFractions r2 = massFractions r1 /\ density r2 = rho) as (C2 & T2 & Y2 & D2).
  { unfold r2, SetTemperature. match goal with |- cached m (UpdateThermoState m ?t ?q) /\ _ => destruct (cached_update m t q C1) as [A B]; destruct (update_keeps m t q) as (B1 & _ & B3 & B4) end.
    split; [exact A|]. split; [exact B3|]. split; [exact B1|exact B4]. }
  assert (length (massFractions r2) = length (molarMasses m)) as L2 by (rewrite Y2, EY, map_length; exact Ls).
  assert (divided (massFractions r2) (molarMasses m) <> 0) as Dne.
  { assert (0 < divided (massFractions r2) (molarMasses m)); [|lra]. apply divided_pos; try assumption.
    - intros x I. rewrite Y2, EY in I. apply in_map_iff in I. destruct I as (y & <- & I). apply Rmult_le_pos; [apply Ns; exact I|left; apply Rinv_0_lt_compat; exact Hrho].
    - rewrite Y2, EY. replace (map (fun y => y / rho) species) with (map (fun y => / rho * y) species) by (apply map_ext; intros; unfold Rdiv; ring).
      rewrite total_scale, Et. rewrite Rinv_l; lra. }
  assert (forall T, GetInternalEnergy m (SetTemperature m T r2) = u T) as EU.
  { intros T. destruct (read_energy m r2 T C2 L2 HT HM) as [E _]. rewrite E. apply over_ext. intros i Hi. rewrite Y2, EY, entry_map by lia. reflexivity. }
  assert (forall T, GetCv m (SetTemperature m T r2) = cv T) as EV.
  { intros T. destruct (read_energy m r2 T C2 L2 HT HM) as [_ E]. rewrite (E Dne). apply over_ext. intros i Hi. rewrite Y2, EY, entry_map by lia. reflexivity. }
  assert (mixture_law (fun T => GetInternalEnergy m (SetTemperature m T r2)) (fun T => GetCv m (SetTemperature m T r2)) cmin cmax) as Law.
  { split; [exact Hc1|]. split; [exact Hc2|]. split.
    - intros T. rewrite EV. eapply derivable_pt_lim_ext; [intros x; symmetry; apply EU|].
      pose proof (consistent_energy m (map (fun y => y / rho) species) C T) as D. unfold u, cv.
      rewrite (over_ext _ _ (fun i => entry (map (fun y => y / rho) species) i * (entry (snd (ThermoData m T)) i - gasConstant m / entry (molarMasses m) i)))
        by (intros i Hi; rewrite entry_map by lia; reflexivity).
      eapply derivable_pt_lim_ext; [|exact D]. intros x. apply over_ext. intros i Hi. rewrite entry_map by lia. reflexivity.
    - intros T. rewrite EV. apply Hcv. }
  destruct (C87_converges _ _ cmin cmax 300 Ts e (1 / 1000000) Law) as (T & ES & RT); [rewrite EU; exact Hu|exact Hd|lra|].
  unfold SetInternalEnergy. rewrite T2. replace ((energy - 1 / 2 * (mom * mom) / rho) / rho) with e by (unfold e; field; lra). rewrite ES.
  assert (temperature (SetTemperature m T r2) = T /\ massFractions (SetTemperature m T r2) = massFractions r2 /\ density (SetTemperature m T r2) = density r2) as (T3 & Y3 & D3).
  { unfold SetTemperature at 1 2 3. match goal with |- context [UpdateThermoState m T ?q] => destruct (update_keeps m T q) as (B1 & _ & B3 & B4) end. split; [exact B3|]. split; [exact B1|exact B4]. }
  assert (right_temperature u cmax e Ts (1 / 1000000) T) as RT'.
  { destruct RT as [RT|RT]; [left; exact RT|right]. rewrite EU in RT. exact RT. }
  eexists. split; [reflexivity|]. unfold CompleteFromReactor. cbn [c_density c_momentum c_species c_temperature c_energy].
  rewrite D3, D2, Y3, Y2, EY, T3, EU. split; [reflexivity|]. split; [field; lra|]. split.
  { rewrite map_map. rewrite <- (map_id species) at 2. apply map_ext. intros y. field. lra. }
  split; [exact RT'|]. split; [field; lra|].
  replace (rho * u T + 1 / 2 * (rho * (mom / rho) * (rho * (mom / rho))) / rho - energy) with (rho * (u T - e)) by (unfold e; field; lra).
  rewrite Rabs_mult, (Rabs_right rho) by lra. apply Rmult_le_compat_l; [lra|].
  destruct RT' as [RT'|RT'].
  - apply Rle_trans with (cmax / 100000); [|apply Rmax_l]. rewrite <- Hu, <- !EU. pose proof (law_lip _ _ _ _ Law) as Lip. cbv beta in Lip.
    assert (0 < cmax) by (specialize (Hcv 0); lra).
    destruct (Rle_dec Ts T) as [G|G].
    + specialize (Lip Ts T G). rewrite Rabs_right in RT' by lra. assert (cmax * (T - Ts) <= cmax * (10 * (1 / 1000000))) by (apply Rmult_le_compat_l; lra).
      assert (0 <= cmin * (T - Ts)) by (apply Rmult_le_pos; lra). rewrite Rabs_right by lra. lra.
    + specialize (Lip T Ts ltac:(lra)). rewrite Rabs_left in RT' by lra. assert (cmax * (Ts - T) <= cmax * (10 * (1 / 1000000))) by (apply Rmult_le_compat_l; lra).
      assert (0 <= cmin * (Ts - T)) by (apply Rmult_le_pos; lra). rewrite Rabs_left1 by lra. lra.
  - apply Rle_trans with (2 := Rmax_r _ _). eapply Rle_trans; [exact RT'|]. apply Req_le.
    replace (Rmax cmax (1 / 100000) * (1 / 1000000)) with (Rmax cmax (1 / 100000) / 1000000) by (unfold Rdiv; ring). field.
Qed.

Print Assumptions C90_completion.

(** a mixture of the two species at 400 K that moves with velocity 3 *)
Example C90_example :
  let species := [1 / 2; 3 / 2] in
  let u T := over 2 (fun i => entry species i / 2 * (entry (fst (ThermoData isomers T)) i - 1 * T / entry [1; 1] i)) in
  let cv T := over 2 (fun i => entry species i / 2 * (entry (snd (ThermoData isomers T)) i - 1 / entry [1; 1] i)) in
  well_formed isomers /\ consistent_data isomers /\ cached isomers (construct isomers) /\ nonneg species /\ total species = 2 /\
  (forall T, 1 <= cv T <= 1) /\ u 400 = (814 - 6 * 6 / (2 * 2)) / 2 /\ Rabs (400 - 300) <= 50000.
Proof.
  intros species u cv. split; [exact iso_wf|]. split; [exact iso_data|]. split; [apply cached_construct|]. split; [|split; [|split; [|split]]].
  - intros x I. cbn in I. destruct I as [<- |[<- |[]]]; lra.
  - cbn. lra.
  - intros T. unfold cv, over, entry, species. cbn. lra.
  - unfold u, over, entry, species. cbn. lra.
  - rewrite Rabs_right; lra.
Qed.
