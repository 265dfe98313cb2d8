(** Lemmas for C89: the source term and an example mechanism. *)
From Coq Require Import String List Reals Lra Lia Bool.
From Verif Require Import ReactorModel ReactorSpec ReactorProofs ReactorProofs3.
Import ListNotations.
Local Open Scope R_scope.

Lemma entry_map (f : R -> R) l i : (i < length l)%nat -> entry (map f l) i = f (entry l i).
Proof. intros H. unfold entry. rewrite (nth_indep _ 0 (f 0)) by (rewrite map_length; exact H). apply map_nth. Qed.

Lemma entries_eq (a b : list R) : length a = length b -> (forall i, (i < length a)%nat -> entry a i = entry b i) -> a = b.
Proof. intros L H. apply (nth_ext a b 0 0 L). exact H. Qed.

Lemma entry_combine (f : R * R -> R) a b i : length a = length b -> (i < length a)%nat -> entry (map f (combine a b)) i = f (entry a i, entry b i).
Proof.
  intros L Hi. unfold entry. rewrite (nth_indep _ 0 (f (0, 0))) by (rewrite map_length, combine_length; lia). rewrite map_nth, combine_nth by exact L. reflexivity.
Qed.

Lemma source_cell (m : mechanism) solver dt r s T c evals rho :
  all_pos (molarMasses m) -> (forall T, length (fst (ThermoData m T)) = length (molarMasses m)) ->
  cached m r -> length (massFractions r) = length (molarMasses m) -> 0 < dt ->
  length (c_species s) = length (molarMasses m) -> nonneg (c_species s) -> c_density s = rho -> total (c_species s) = rho -> 0 < rho ->
  length (c 0) = length (molarMasses m) -> length (c dt) = length (molarMasses m) -> T 0 = c_temperature s ->
  (forall i, (i < length (molarMasses m))%nat -> entry (c 0) i * entry (molarMasses m) i = entry (c_species s) i) ->
  solver dt rho (T 0, c 0) = (evals, (T dt, c dt)) ->
  let s' := snd (kinetic_cell m solver dt r s) in
  c_density s' = rho /\ c_momentum s' = c_momentum s /\ c_temperature s' = T dt /\
  length (c_species s') = length (molarMasses m) /\
  (forall i, (i < length (molarMasses m))%nat -> entry (c_species s') i = entry (c dt) i * entry (molarMasses m) i) /\
  c_energy s' = energy_density (gasConstant m) (molarMasses m) (fst (ThermoData m (last evals (T 0)))) (T dt) (c dt) +
    1 / 2 * (c_momentum s * c_momentum s) / rho.
Proof.
  intros HM HT Hc L Hdt Ls Ns Er Et Hrho L0 L1 ET E0 Hsol. unfold kinetic_cell.
  set (r1 := SetMassFractions m (c_species s) r).
  assert (massFractions r1 = map (fun y => y / rho) (c_species s)) as EY.
  { unfold r1. rewrite set_fractions by congruence. rewrite clip_id by exact Ns. rewrite Et. destruct (Req_EM_T rho 0); [lra|]. reflexivity. }
  set (r2 := SetTemperature m (c_temperature s) r1).
  assert (cached m r1) as C1 by exact Hc.
  assert (cached m r2 /\ thermoTemp r2 = c_temperature s /\ temperature r2 = c_temperature s /\ massFractions r2 = massFractions r1) as (C2 & K2 & T2 & Y2).
  { unfold r2, SetTemperature. match goal with |- cached m (UpdateThermoState m ?t ?q) /\ _ => destruct (cached_update m t q C1) as [A B]; destruct (update_keeps m t q) as (B1 & _ & B3 & _) end.
    split; [exact A|]. split; [exact B|]. split; [exact B3|exact B1]. }
  set (r3 := SetDensity (c_density s) r2). unfold Advance. destruct (Req_EM_T dt 0); [lra|]. unfold Integrate.
  set (r4 := UpdateMolesFromMassFractions m r3).
  assert (moles r4 = c 0) as EC.
  { change (moles r4) with (moles_of m (c_density s) (massFractions r2)). rewrite Y2, EY, Er. apply entries_eq.
    - unfold moles_of. rewrite map_length, combine_length, map_length. lia.
    - unfold moles_of. rewrite map_length, combine_length, map_length. intros i Hi. rewrite entry_combine by (try rewrite map_length; lia).
      rewrite entry_map by lia. cbn [fst snd]. rewrite <- E0 by lia. assert (0 < entry (molarMasses m) i) by (apply HM, nth_In; lia). field. lra. }
  change (density r4) with (c_density s). change (temperature r4) with (temperature r2). rewrite EC, T2, Er, <- ET, Hsol.
  destruct (cached_evals m evals r4 C2) as (A1 & A2 & A3 & A4 & A5 & A6). set (r5 := fold_left (fun r T => rhs_cache m T r) evals r4) in *.
  unfold CompleteFromReactor, UpdateMassFractionsFromMoles. cbn [density temperature massFractions moles c_density c_momentum c_energy c_species c_temperature snd fst].
  rewrite A6. change (density r4) with (c_density s). rewrite Er.
  split; [reflexivity|]. split; [field; lra|]. split; [reflexivity|].
  assert (length (map (fun p : R * R => fst p * snd p / rho) (combine (c dt) (molarMasses m))) = length (molarMasses m)) as LY by (rewrite map_length, combine_length; lia).
  assert (forall i, (i < length (molarMasses m))%nat -> entry (map (fun p : R * R => fst p * snd p / rho) (combine (c dt) (molarMasses m))) i = entry (c dt) i * entry (molarMasses m) i / rho) as EY'.
  { intros i Hi. rewrite entry_combine by lia. reflexivity. }
  split; [rewrite map_length; exact LY|]. split.
  - intros i Hi. rewrite entry_map by lia. rewrite EY' by exact Hi. field. lra.
  - unfold GetInternalEnergy, GetEnthalpy, MeanY. cbn [enthalpies massFractions temperature]. rewrite fold_weighted, fold_divided.
    destruct A1 as [A1 _]. rewrite A1, A2. change (thermoTemp r4) with (thermoTemp r2). rewrite K2, <- ET.
    rewrite weighted_over by (rewrite LY; apply HT). rewrite divided_over by exact LY. rewrite LY, !Rplus_0_l.
    set (Y := map (fun p : R * R => fst p * snd p / rho) (combine (c dt) (molarMasses m))) in *.
    set (h := fst (ThermoData m (last evals (T 0)))).
    replace (rho * (over (length (molarMasses m)) (fun i => entry h i * entry Y i) - gasConstant m * over (length (molarMasses m)) (fun i => entry Y i / entry (molarMasses m) i) * T dt))
      with (over (length (molarMasses m)) (fun i => rho * (entry h i * entry Y i)) - over (length (molarMasses m)) (fun i => (rho * gasConstant m * T dt) * (entry Y i / entry (molarMasses m) i)))
      by (rewrite !over_scale; ring).
    rewrite <- over_minus. unfold energy_density. f_equal.
    + apply over_ext. intros i Hi. rewrite EY' by exact Hi. assert (0 < entry (molarMasses m) i) by (apply HM, nth_In; exact Hi). field. lra.
    + field. lra.
Qed.

(** ** Two isomers: the first turns into the second and releases heat *)

Definition isomers : mechanism :=
  mkMechanism ["A"; "B"]%string [1; 1] 1 (fun T => ([10 + 2 * T; 2 * T], [2; 2])) (fun c _ _ => [- entry c 0; entry c 0]).

Definition iso_T (T0 t : R) : R := T0 + 10 * (1 - exp (- t)).
Definition iso_c (t : R) : list R := [exp (- t); 1 - exp (- t)].

Lemma iso_wf : well_formed isomers.
Proof.
  split; [|split].
  - intros x I. cbn in I. destruct I as [<- |[<- |[]]]; lra.
  - intros T. split; reflexivity.
  - reflexivity.
Qed.
Lemma iso_data : consistent_data isomers.
Proof.
  intros T i Hi. cbn [molarMasses isomers length] in Hi.
  assert (forall a : R, derivable_pt_lim (fun x => a + 2 * x) T 2) as D.
  { intros a. assert (derivable_pt_lim (fun x => a + 2 * x) T (0 + 2 * 1)) as E.
    { apply (derivable_pt_lim_plus (fun _ => a) (fun x => 2 * x)); [apply (derivable_pt_lim_const a T)|]. apply (derivable_pt_lim_scal id), derivable_pt_lim_id. }
    replace (0 + 2 * 1) with 2 in E by ring. exact E. }
  destruct i as [|[|i]]; [| |lia].
  - exact (D 10).
  - eapply derivable_pt_lim_ext; [|exact (D 0)]. intros x. unfold entry. cbn. ring.
Qed.
Lemma iso_mass : conserves_mass isomers.
Proof. intros c T p _. unfold mass_density, over, entry. cbn. ring. Qed.

Lemma exp_neg_derivative t : derivable_pt_lim (fun x => exp (- x)) t (- exp (- t)).
Proof.
  replace (- exp (- t)) with (exp (- t) * - 1) by ring. apply (derivable_pt_lim_comp Ropp exp); [|apply derivable_pt_lim_exp].
  apply (derivable_pt_lim_opp id), derivable_pt_lim_id.
Qed.
Lemma rest_derivative t : derivable_pt_lim (fun x => 1 - exp (- x)) t (exp (- t)).
Proof.
  assert (derivable_pt_lim (fun x => 1 - exp (- x)) t (0 - - exp (- t))) as E.
  { apply (derivable_pt_lim_minus (fun _ => 1) (fun x => exp (- x))); [apply (derivable_pt_lim_const 1 t)|apply exp_neg_derivative]. }
  replace (0 - - exp (- t)) with (exp (- t)) in E by ring. exact E.
Qed.

Lemma iso_solves T0 dt : solves isomers 1 dt (iso_T T0) iso_c.
Proof.
  intros t _. split; [reflexivity|]. cbv zeta. rewrite rates_of. split.
  - replace (fst _) with (10 * exp (- t)).
    + assert (derivable_pt_lim (fun x => T0 + 10 * (1 - exp (- x))) t (0 + 10 * exp (- t))) as E.
      { apply (derivable_pt_lim_plus (fun _ => T0) (fun x => 10 * (1 - exp (- x)))); [apply (derivable_pt_lim_const T0 t)|].
        apply (derivable_pt_lim_scal (fun x => 1 - exp (- x))), rest_derivative. }
      rewrite Rplus_0_l in E. exact E.
    + unfold OdeRhsAdvance, isomers, iso_c, accumulate. cbn [molarMasses gasConstant ThermoData ProductionRates fst snd combine fold_left entry nth].
      field. lra.
  - intros i Hi. cbn [molarMasses isomers length] in Hi. destruct i as [|[|i]]; [apply exp_neg_derivative|apply rest_derivative|lia].
Qed.
Lemma iso_conditions T0 t : 0 <= t -> nonneg (iso_c t) /\ heat_density 1 [1; 1] (snd (ThermoData isomers (iso_T T0 t))) (iso_c t) <> 0.
Proof.
  intros Ht. assert (0 < exp (- t)) by apply exp_pos. assert (exp (- t) <= 1).
  { rewrite <- exp_0. destruct (Req_dec t 0) as [-> |N]; [rewrite Ropp_0; lra|]. left. apply exp_increasing. lra. }
  split.
  - intros x I. cbn in I. destruct I as [<- |[<- |[]]]; lra.
  - unfold heat_density, over, entry, iso_c. cbn. lra.
Qed.
