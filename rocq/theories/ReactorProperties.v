(** C88: the composition of a mixture. *)
From Coq Require Import String List Reals Lra Lia Bool.
From Verif Require Import ReactorModel ReactorSpec ReactorProofs ReactorProofs2.
Import ListNotations.
Local Open Scope R_scope.

(** A small mechanism for the examples: hydrogen, oxygen, water; constant heat capacities *)
Definition example_mechanism : mechanism :=
  mkMechanism ["H2"%string; "O2"%string; "H2O"%string] [2; 32; 18] 8314
    (fun T => ([14300 * T; 920 * T; 1860 * T - 13400000], [14300; 920; 1860])) (fun c T p => [0; 0; 0]).
Definition example_reactor : reactor := construct example_mechanism.

(** C88 (mass fractions): whatever numbers are passed, if one of them is positive: afterwards the mass fractions are a composition
    with the ratios of the positive ones, the concentrations belong to them, temperature and density are unchanged *)
Theorem C88_mass_fractions :
  forall m r fractions x, length fractions = length (molarMasses m) -> length (massFractions r) = length (molarMasses m) ->
    all_pos (molarMasses m) -> In x fractions -> 0 < x ->
    let r' := SetMassFractions m fractions r in
    composition (length (molarMasses m)) (massFractions r') /\
    proportional (massFractions r') (map (Rmax 0) fractions) /\
    (forall i, (i < length (molarMasses m))%nat ->
       entry (moles r') i * entry (molarMasses m) i = entry (massFractions r') i * density r) /\
    temperature r' = temperature r /\ density r' = density r.
Proof.
  intros m r fr x L1 L2 HM I P r'. assert (length (massFractions r) = length fr) as L by congruence.
  pose proof (clip_pos fr x I P) as C. pose proof (composition_fractions m fr r x L I P) as HC. rewrite L1 in HC.
  split; [exact HC|]. split.
  - exists (/ total (map (Rmax 0) fr)). split; [apply Rinv_0_lt_compat; exact C|]. unfold r'. rewrite set_fractions_pos by assumption. apply map_div_scale.
  - split; [|split; reflexivity]. intros i Hi. destruct HC as (HL & _).
    change (moles r') with (moles_of m (density r) (massFractions r')). unfold entry. rewrite nth_moles by (unfold r'; lia).
    assert (0 < nth i (molarMasses m) 0) by (apply HM, nth_In; exact Hi). field. lra.
Qed.

Print Assumptions C88_mass_fractions.

(** C88 (mass fractions that are a composition are kept as they are) *)
Theorem C88_mass_fractions_kept :
  forall m r Y, length (massFractions r) = length (molarMasses m) -> composition (length (molarMasses m)) Y ->
    massFractions (SetMassFractions m Y r) = Y.
Proof.
  intros m r Y L (L1 & H & S1). rewrite set_fractions by congruence. rewrite clip_id by exact H. rewrite S1.
  destruct (Req_EM_T 1 0); [lra|]. rewrite <- (map_id Y) at 2. apply map_ext. intros y. field.
Qed.

Print Assumptions C88_mass_fractions_kept.

Example C88_example : all_pos (molarMasses example_mechanism) /\ length (massFractions example_reactor) = 3%nat /\ In (1 / 2) [1 / 2; -1; 3].
Proof.
  split; [|split; [|left; reflexivity]].
  - intros x I. cbn in I. destruct I as [<- |[<- |[<- |[]]]]; lra.
  - unfold example_reactor, construct, SetPressure, SetTemperature, UpdateThermoState, SetDensity. destruct (Req_EM_T _ _); reflexivity.
Qed.

(** C88 (refuted without a positive entry): numbers that are not positive are accepted, and the mixture consists of nothing *)
Theorem C88_empty_refuted :
  exists m r fractions, length fractions = length (molarMasses m) /\ length (massFractions r) = length (molarMasses m) /\
    all_pos (molarMasses m) /\ total fractions <> 0 /\ total (massFractions (SetMassFractions m fractions r)) = 0.
Proof.
  exists example_mechanism, example_reactor, [-1; 0; -1]. split; [reflexivity|]. split; [apply C88_example|]. split; [apply C88_example|].
  split; [cbn; lra|]. rewrite set_fractions by apply C88_example. cbn [map]. rewrite (Rmax_left 0 (-1)), (Rmax_left 0 0) by lra. cbn [total].
  destruct (Req_EM_T _ 0) as [E|E]; cbn; lra.
Qed.

Print Assumptions C88_empty_refuted.

(** C88 (mole fractions): setting mole fractions gives concentrations in these ratios, mass fractions that are a composition, the
    mean molar mass of the mole fractions, and averages over the mole fractions *)
Theorem C88_mole_fractions :
  forall m r X x, length X = length (molarMasses m) -> length (massFractions r) = length (molarMasses m) ->
    all_pos (molarMasses m) -> 0 < density r -> nonneg X -> In x X -> 0 < x ->
    let r' := SetMoleFractions m X r in
    composition (length (molarMasses m)) (massFractions r') /\
    proportional (moles r') X /\
    GetMeanMolarMass m r' = weighted X (molarMasses m) / total X /\
    (forall q, length q = length (molarMasses m) -> MeanX m q r' = weighted q X / total X) /\
    temperature r' = temperature r /\ density r' = density r.
Proof.
  intros m r X x L1 L2 HM Hrho HX I P r'. assert (length (massFractions r) = length X) as L by congruence.
  pose proof (clip_pos X x I P) as C. rewrite clip_id in C by exact HX.
  set (Z := map (fun y => y / total X) X).
  assert (massFractions (SetMassFractions m X r) = Z) as EZ.
  { rewrite set_fractions_pos by (try assumption; rewrite clip_id; assumption). rewrite clip_id by exact HX. reflexivity. }
  assert (length Z = length (molarMasses m)) as LZ by (unfold Z; rewrite map_length; exact L1).
  assert (nonneg Z) as NZ by (apply nonneg_div; assumption).
  assert (total Z = 1) as TZ by (unfold Z; rewrite total_div; field; lra).
  assert (0 < weighted Z (molarMasses m)) as W by (apply weighted_pos; try assumption; lra).
  assert (weighted Z (molarMasses m) = weighted X (molarMasses m) / total X) as EW by (unfold Z; apply weighted_div).
  assert (massFractions r' = to_mass m Z) as EY by (unfold r', SetMoleFractions, UpdateMolesFromMassFractions, with_fractions; cbn [massFractions]; rewrite EZ; reflexivity).
  assert (GetMeanMolarMass m r' = weighted Z (molarMasses m)) as EM.
  { unfold GetMeanMolarMass. rewrite fold_divided, EY, divided_to_mass by assumption. rewrite TZ. field. lra. }
  split; [rewrite EY; split; [apply length_to_mass; exact LZ|split; [apply nonneg_to_mass; assumption|apply total_to_mass; exact W]]|].
  split.
  - exists (density r / weighted Z (molarMasses m) * / total X). split.
    + apply Rmult_lt_0_compat; [apply Rdiv_lt_0_compat; assumption|apply Rinv_0_lt_compat; exact C].
    + unfold r', SetMoleFractions. change (moles (UpdateMolesFromMassFractions m ?r)) with (moles_of m (density r) (massFractions r)).
      unfold UpdateMolesFromMassFractions, with_fractions. cbn [massFractions density moles]. rewrite EZ.
      change (density (SetMassFractions m X r)) with (density r). rewrite moles_to_mass by assumption. unfold Z at 2. rewrite map_map. apply map_ext. intros y. unfold Rdiv. ring.
  - split; [rewrite EM; exact EW|]. split; [|split; reflexivity].
    intros q Lq. unfold MeanX. rewrite EM, fold_meanx, EY, to_mass_over by assumption. rewrite weighted_scale_r.
    unfold Z at 3. rewrite map_div_scale, weighted_scale_r. field. lra.
Qed.

Print Assumptions C88_mole_fractions.

(** C88 (refuted for the getter): what is returned as mole fractions are the concentrations; they do not sum to one *)
Theorem C88_get_mole_fractions_refuted :
  exists m r X, composition (length (molarMasses m)) X /\ length (massFractions r) = length (molarMasses m) /\ all_pos (molarMasses m) /\
    0 < density r /\ total (GetMoleFractions m (SetMoleFractions m X r)) <> 1.
Proof.
  set (r := SetDensity 1 example_reactor). exists example_mechanism, r, [1; 0; 0].
  assert (composition 3 [1; 0; 0]) as HC.
  { split; [reflexivity|]. split; [intros y I; cbn in I; destruct I as [<- |[<- |[<- |[]]]]; lra|cbn; lra]. }
  split; [exact HC|]. split; [apply C88_example|]. split; [apply C88_example|]. split; [unfold r, SetDensity; cbn; lra|].
  assert (massFractions (SetMassFractions example_mechanism [1; 0; 0] r) = [1; 0; 0]) as E.
  { apply C88_mass_fractions_kept; [apply C88_example|exact HC]. }
  unfold GetMoleFractions. change (moles (UpdateMolesFromMassFractions ?m ?r)) with (moles_of m (density r) (massFractions r)).
  rewrite total_moles.
  assert (massFractions (SetMoleFractions example_mechanism [1; 0; 0] r) = to_mass example_mechanism [1; 0; 0]) as ->.
  { unfold SetMoleFractions, UpdateMolesFromMassFractions, with_fractions. cbn [massFractions]. rewrite E. reflexivity. }
  rewrite divided_to_mass by (try reflexivity; apply C88_example). cbn [total weighted molarMasses example_mechanism].
  change (density (SetMoleFractions example_mechanism [1; 0; 0] r)) with 1. lra.
Qed.

Print Assumptions C88_get_mole_fractions_refuted.

(** C88 (pressure): setting the pressure keeps composition and temperature and gives this pressure *)
Theorem C88_pressure :
  forall m r p, composition (length (molarMasses m)) (massFractions r) -> all_pos (molarMasses m) -> 0 < gasConstant m -> temperature r <> 0 ->
    GetPressure m (SetPressure m p r) = p /\ temperature (SetPressure m p r) = temperature r /\
    massFractions (SetPressure m p r) = massFractions r.
Proof.
  intros m r p (L & N & T1) HM HR HT. split; [|split; reflexivity]. unfold SetPressure, GetPressure, SetDensity, GetMeanMolarMass. cbn [density temperature massFractions].
  rewrite fold_divided. assert (0 < divided (massFractions r) (molarMasses m)) by (apply divided_pos; try assumption; lra). field. repeat split; lra.
Qed.

Print Assumptions C88_pressure.

(** C88 (packs): a lane gets the mass fractions, the mean molar mass and the density that the reactor gets for the same numbers, if they
    are not negative; a masked lane also for negative numbers; a lane which is not active contains the first species only *)
Theorem C88_lanes :
  forall m r fractions x p T, length fractions = length (molarMasses m) -> length (massFractions r) = length (molarMasses m) ->
    all_pos (molarMasses m) -> In x fractions -> 0 < x -> 0 < T ->
    let r' := SetMassFractions m fractions r in
    (nonneg fractions -> SetMassFractionsLane fractions = massFractions r') /\
    SetMassFractionsLaneMasked true fractions = massFractions r' /\
    SetMassFractionsLaneMasked false fractions = 1 :: repeat 0 (length fractions - 1) /\
    MeanMolarMassLane m (massFractions r') = GetMeanMolarMass m r' /\
    DensityLane m p T (massFractions r') = density (SetPressure m p (SetTemperature m T r')).
Proof.
  intros m r fr x p T L1 L2 HM I P HT r'. assert (length (massFractions r) = length fr) as L by congruence.
  pose proof (clip_pos fr x I P) as C.
  assert (massFractions r' = map (fun y => y / total (map (Rmax 0) fr)) (map (Rmax 0) fr)) as EY by (apply set_fractions_pos; assumption).
  destruct (composition_fractions m fr r x L I P) as (HL & HN & HT1). fold r' in HL, HN, HT1.
  assert (0 < divided (massFractions r') (molarMasses m)) as D by (apply divided_pos; try assumption; [congruence|lra]).
  assert (MeanMolarMassLane m (massFractions r') = GetMeanMolarMass m r') as EM.
  { unfold MeanMolarMassLane, GetMeanMolarMass. rewrite fold_divided, Rplus_0_l.
    destruct (Rlt_dec 0 (divided (massFractions r') (molarMasses m))) as [c|c]; [|exfalso; exact (c D)].
    destruct (Rlt_dec 0 (divided (massFractions r') (molarMasses m))) as [c'|c']; [reflexivity|exfalso; exact (c' D)]. }
  split; [|split; [|split; [|split; [exact EM|]]]].
  - intros N. unfold SetMassFractionsLane. rewrite accumulate_total, EY.
    assert (map Rabs fr = map (Rmax 0) fr) as ->.
    { apply map_ext_in. intros y J. rewrite Rabs_right by (apply Rle_ge, N, J). rewrite Rmax_right by (apply N, J). reflexivity. }
    destruct (Rlt_dec 0 _); [reflexivity|contradiction].
  - unfold SetMassFractionsLaneMasked. rewrite accumulate_total, EY. destruct (Rlt_dec 0 _); [reflexivity|contradiction].
  - unfold SetMassFractionsLaneMasked. rewrite accumulate_total. destruct fr as [|y fr]; [contradiction|]. cbn [map length]. rewrite Nat.sub_succ, Nat.sub_0_r.
    rewrite map_map, (Rmax_right 0 1) by lra.
    assert (map (fun _ : R => Rmax 0 0) fr = repeat 0 (length fr)) as ->.
    { clear. induction fr as [|z fr IH]; [reflexivity|]. cbn. rewrite IH, Rmax_left by lra. reflexivity. }
    assert (forall k, total (repeat 0 k) = 0) as Z0 by (induction k; cbn; lra).
    cbn [total]. rewrite Z0. destruct (Rlt_dec 0 (1 + 0)); [|lra]. f_equal; [lra|].
    generalize (length fr). induction n as [|k IH]; [reflexivity|]. cbn. rewrite IH. f_equal. lra.
  - unfold DensityLane, SetPressure, SetDensity. cbn [density]. rewrite EM. destruct (Rlt_dec 0 T); [|contradiction].
    unfold SetTemperature, UpdateThermoState. destruct (Req_EM_T _ _); reflexivity.
Qed.

Print Assumptions C88_lanes.

(** C88 (refuted): without a mask a negative number counts with its absolute value, but as zero for the reactor *)
Theorem C88_lane_negative_refuted :
  exists m r fractions x, length fractions = length (molarMasses m) /\ length (massFractions r) = length (molarMasses m) /\
    all_pos (molarMasses m) /\ In x fractions /\ 0 < x /\
    SetMassFractionsLane fractions <> massFractions (SetMassFractions m fractions r).
Proof.
  exists example_mechanism, example_reactor, [1; -1; 0], 1. split; [reflexivity|]. split; [apply C88_example|]. split; [apply C88_example|].
  split; [left; reflexivity|]. split; [lra|]. rewrite set_fractions by apply C88_example. cbn [map].
  rewrite (Rmax_right 0 1), (Rmax_left 0 (-1)), (Rmax_left 0 0) by lra. cbn [total map].
  destruct (Req_EM_T _ 0); [lra|]. unfold SetMassFractionsLane. rewrite accumulate_total. cbn [map total].
  rewrite (Rabs_right 1), (Rabs_left (-1)), Rabs_R0 by lra. destruct (Rlt_dec 0 _); [|lra]. cbn [map]. intros E. injection E as E1 E2. lra.
Qed.

Print Assumptions C88_lane_negative_refuted.

(** C88 (strings): species which are all known and named once, with values that are not negative and not all zero: the named
    species have the shares of their values, all others are zero *)
Theorem C88_string :
  forall m r entries, length (names m) = length (molarMasses m) -> length (massFractions r) = length (molarMasses m) -> NoDup (names m) ->
    NoDup (map fst entries) -> (forall e, In e entries -> In (fst e) (names m)) -> nonneg (map snd entries) -> 0 < total (map snd entries) ->
    exists r', SetMassFractionsString m entries r = (r', true) /\
      composition (length (molarMasses m)) (massFractions r') /\
      (forall name v i, In (name, v) entries -> nth_error (names m) i = Some name ->
         entry (massFractions r') i = v / total (map snd entries)) /\
      (forall name i, nth_error (names m) i = Some name -> ~ In name (map fst entries) -> entry (massFractions r') i = 0).
Proof.
  intros m r entries L1 L2 ND D K N P. unfold SetMassFractionsString.
  destruct (assign_spec m entries (map (fun _ => 0) (massFractions r)) 0) as (Y & E & LY & TY & H1 & H2); try assumption.
  - rewrite map_length. congruence.
  - intros e i _ _. clear. revert i. induction (massFractions r) as [|z l IH]; intros [|i]; try reflexivity. apply IH.
  - rewrite E. eexists. split; [reflexivity|]. cbn [massFractions UpdateMolesFromMassFractions with_fractions]. rewrite map_length in LY.
    assert (forall l : list R, total (map (fun _ => 0) l) = 0) as Z0 by (induction l; cbn; lra). rewrite Z0, Rplus_0_l in TY. rewrite Rplus_0_l.
    set (t := total (map snd entries)) in *.
    assert (forall i, nth i (map (fun y => y / t) Y) 0 = nth i Y 0 / t) as NT.
    { clear. intros i. revert i. induction Y as [|y Y IH]; intros [|i]; cbn; try (unfold Rdiv; ring). apply IH. }
    assert (forall name v i, In (name, v) entries -> nth_error (names m) i = Some name -> nth i Y 0 = v) as A1.
    { intros name v i I F. apply (H1 (name, v) i I). cbn. apply species_index_nth; assumption. }
    assert (forall name i, nth_error (names m) i = Some name -> ~ In name (map fst entries) -> nth i Y 0 = 0) as A2.
    { intros name i F NI. rewrite H2.
      - clear. revert i. induction (massFractions r) as [|z l IH]; intros [|i]; try reflexivity. apply IH.
      - intros e I Ei. apply NI. pose proof (species_index_spec _ _ _ _ Ei) as [_ G]. rewrite Nat.sub_0_r in G. assert (fst e = name) by congruence. subst. apply in_map. exact I. }
    split; [|split].
    + split; [rewrite map_length; congruence|]. split.
      * apply nonneg_div; [|exact P]. intros y I. apply In_nth with (d := 0) in I as (i & Hi & <-).
        destruct (nth_error (names m) i) as [name|] eqn:F; [|apply nth_error_None in F; lia].
        destruct (in_dec string_dec name (map fst entries)) as [J|J].
        -- apply in_map_iff in J as ([nm v] & <- & J). rewrite (A1 nm v i J F). apply N. apply in_map_iff. exists (nm, v). split; [reflexivity|exact J].
        -- rewrite (A2 name i F J). lra.
      * rewrite total_div, TY. field. lra.
    + intros name v i I F. unfold entry. rewrite NT, (A1 name v i I F). reflexivity.
    + intros name i F J. unfold entry. rewrite NT, (A2 name i F J). unfold Rdiv. ring.
Qed.

Print Assumptions C88_string.

Example C88_string_example :
  NoDup (names example_mechanism) /\ NoDup (map fst [("O2"%string, 8); ("H2"%string, 1)]) /\
  (forall e, In e [("O2"%string, 8); ("H2"%string, 1)] -> In (fst e) (names example_mechanism)).
Proof.
  split; [|split].
  - repeat constructor; cbn; intuition discriminate.
  - repeat constructor; cbn; intuition discriminate.
  - intros e I. cbn in I. destruct I as [<- |[<- |[]]]; cbn; tauto.
Qed.

(** C88 (refuted): a species named twice: the mass fractions do not sum to one *)
Theorem C88_string_duplicate_refuted :
  exists m r entries r', (forall e, In e entries -> In (fst e) (names m)) /\ nonneg (map snd entries) /\ 0 < total (map snd entries) /\
    SetMassFractionsString m entries r = (r', true) /\ total (massFractions r') <> 1.
Proof.
  exists example_mechanism, example_reactor, [("H2"%string, 1); ("H2"%string, 1)]. eexists. split; [|split; [|split; [|split; [reflexivity|]]]].
  - intros e I. cbn in I. destruct I as [<- |[<- |[]]]; cbn; tauto.
  - intros x I. cbn in I. destruct I as [<- |[<- |[]]]; lra.
  - cbn. lra.
  - unfold example_reactor, construct, SetPressure, SetTemperature, UpdateThermoState, SetDensity.
    destruct (Req_EM_T _ _); cbn; lra.
Qed.

Print Assumptions C88_string_duplicate_refuted.

(** C88 (refuted): an unknown species throws, but the mass fractions are lost *)
Theorem C88_string_unknown_refuted :
  exists m r entries r', composition (length (molarMasses m)) (massFractions r) /\
    SetMassFractionsString m entries r = (r', false) /\ total (massFractions r') = 0.
Proof.
  exists example_mechanism, example_reactor, [("N2"%string, 1)]. eexists. split; [|split; [reflexivity|]].
  - assert (massFractions example_reactor = [1; 0; 0]) as ->.
    { unfold example_reactor, construct, SetPressure, SetTemperature, UpdateThermoState, SetDensity. destruct (Req_EM_T _ _); reflexivity. }
    split; [reflexivity|]. split; [intros x I; cbn in I; destruct I as [<- |[<- |[<- |[]]]]; lra|cbn; lra].
  - unfold example_reactor, construct, SetPressure, SetTemperature, UpdateThermoState, SetDensity. destruct (Req_EM_T _ _); cbn; lra.
Qed.

Print Assumptions C88_string_unknown_refuted.

(** C88 (refuted for assignments): an assigned reactor keeps its own state for packs *)
Theorem C88_assign_refuted :
  exists this other, array_state (assign this other) <> array_state other.
Proof.
  exists (mkObject example_reactor ([1; 0; 0], 300, 1)), (mkObject example_reactor ([0; 1; 0], 400, 2)). cbn. intros E. injection E as E1. lra.
Qed.

Print Assumptions C88_assign_refuted.
