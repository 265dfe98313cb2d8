(** Lemmas for C89: chemistry. *)
From Coq Require Import String List Reals Lra Lia Bool.
From Verif Require Import ReactorModel ReactorSpec ReactorProofs.
Import ListNotations.
Local Open Scope R_scope.

Lemma over_S n f : over (S n) f = f O + over n (fun i => f (S i)).
Proof. unfold over. cbn [seq map total]. f_equal. rewrite <- seq_shift, map_map. reflexivity. Qed.
Lemma over_ext n f g : (forall i, (i < n)%nat -> f i = g i) -> over n f = over n g.
Proof. intros H. unfold over. f_equal. apply map_ext_in. intros i I. apply in_seq in I. apply H. lia. Qed.
Lemma over_plus n f g : over n (fun i => f i + g i) = over n f + over n g.
Proof. revert f g. induction n as [|n IH]; intros f g; [unfold over; cbn; ring|]. rewrite !over_S, IH. ring. Qed.
Lemma over_scale n k f : over n (fun i => k * f i) = k * over n f.
Proof. revert f. induction n as [|n IH]; intros f; [unfold over; cbn; ring|]. rewrite !over_S, IH. ring. Qed.
Lemma over_minus n f g : over n (fun i => f i - g i) = over n f - over n g.
Proof. revert f g. induction n as [|n IH]; intros f g; [unfold over; cbn; ring|]. rewrite !over_S, IH. ring. Qed.
Lemma over_nonneg n f : (forall i, (i < n)%nat -> 0 <= f i) -> 0 <= over n f.
Proof.
  revert f. induction n as [|n IH]; intros f H; [unfold over; cbn; lra|]. rewrite over_S. pose proof (H O ltac:(lia)).
  assert (0 <= over n (fun i => f (S i))) by (apply IH; intros i Hi; apply H; lia). lra.
Qed.
Lemma total_over l : total l = over (length l) (entry l).
Proof. induction l as [|x l IH]; [reflexivity|]. cbn [total length]. rewrite over_S, IH. reflexivity. Qed.
Lemma weighted_over a b : length a = length b -> weighted a b = over (length b) (fun i => entry a i * entry b i).
Proof.
  revert b. induction a as [|x a IH]; intros [|y b] L; try discriminate; [reflexivity|]. injection L as L. cbn [weighted length]. rewrite over_S, IH by exact L. reflexivity.
Qed.
Lemma divided_over a b : length a = length b -> divided a b = over (length b) (fun i => entry a i / entry b i).
Proof.
  revert b. induction a as [|x a IH]; intros [|y b] L; try discriminate; [reflexivity|]. injection L as L. cbn [divided length]. rewrite over_S, IH by exact L. reflexivity.
Qed.

(** the loop of the right-hand side *)
Lemma rhs_loop (R0 T rho conc : R) : forall h cp c dc M a b d,
  length h = length M -> length cp = length M -> length c = length M -> length dc = length M ->
  fold_left (fun acc p => let '(a, b, d) := acc in let '(hi, cpi, ci, dci, Mi) := p in
      (a + (hi - R0 / Mi * T) * (dci * Mi), b + cpi * ci * Mi / rho, d + ci * Mi / conc))
    (combine (combine (combine (combine h cp) c) dc) M) (a, b, d) =
  (a + over (length M) (fun i => (entry h i - R0 / entry M i * T) * (entry dc i * entry M i)),
   b + over (length M) (fun i => entry cp i * entry c i * entry M i / rho),
   d + over (length M) (fun i => entry c i * entry M i / conc)).
Proof.
  induction h as [|x1 h IH]; intros [|x2 cp] [|x3 c] [|x4 dc] [|x5 M] a b d L1 L2 L3 L4; try discriminate.
  - cbn. unfold over. cbn. f_equal; [f_equal|]; ring.
  - injection L1 as L1. injection L2 as L2. injection L3 as L3. injection L4 as L4. cbn [combine fold_left length].
    rewrite (IH cp c dc M) by assumption. rewrite !over_S. unfold entry; cbn [nth]. f_equal; [f_equal|]; ring.
Qed.

Section Chem.
Variable m : mechanism.
Notation M := (molarMasses m).
Notation n := (length M).
Notation R0 := (gasConstant m).

Definition well_formed : Prop :=
  all_pos M /\ (forall T, length (fst (ThermoData m T)) = n /\ length (snd (ThermoData m T)) = n) /\
  (forall c T p, length c = n -> length (ProductionRates m c T p) = n).

Lemma M_pos i : all_pos M -> (i < n)%nat -> 0 < entry M i.
Proof. intros H Hi. apply H, nth_In. exact Hi. Qed.

(** the temperature derivative *)
Lemma rhs_T rho T c : well_formed -> length c = n -> 0 < rho -> mass_density M c = rho -> 0 < total c ->
  heat_density R0 M (snd (ThermoData m T)) c <> 0 ->
  let f := OdeRhsAdvance m rho (fst (ThermoData m T)) (snd (ThermoData m T)) T c in
  length (snd f) = n /\
  fst f * heat_density R0 M (snd (ThermoData m T)) c = - energy_density R0 M (fst (ThermoData m T)) T (snd f).
Proof.
  intros (HM & HT & HP) L Hrho Hmass Hc Hh f. destruct (HT T) as [Lh Lcp]. set (h := fst (ThermoData m T)) in *. set (cp := snd (ThermoData m T)) in *.
  unfold f, OdeRhsAdvance. rewrite accumulate_total. set (dc := ProductionRates m c T (total c * R0 * T)).
  assert (length dc = n) as Ld by (apply HP; exact L).
  rewrite (rhs_loop R0 T rho (total c) h cp c dc M 0 0 0) by assumption. cbn [fst snd]. split; [exact Ld|].
  assert (over n (fun i => entry cp i * entry c i * entry M i / rho) = over n (fun i => entry cp i * entry c i * entry M i) / rho) as E1.
  { unfold Rdiv. rewrite Rmult_comm, <- over_scale. apply over_ext. intros i _. ring. }
  assert (over n (fun i => entry c i * entry M i / total c) = rho / total c) as E2.
  { rewrite <- Hmass. unfold mass_density, Rdiv. rewrite Rmult_comm, <- over_scale. apply over_ext. intros i _. ring. }
  assert (heat_density R0 M cp c = over n (fun i => entry cp i * entry c i * entry M i) - R0 * total c) as E3.
  { unfold heat_density. rewrite (total_over c), L, <- over_scale, <- over_minus. apply over_ext. intros i _. ring. }
  assert (over n (fun i => (entry h i - R0 / entry M i * T) * (entry dc i * entry M i)) = energy_density R0 M h T dc) as E4.
  { unfold energy_density. apply over_ext. intros i Hi. pose proof (M_pos i HM Hi). field. lra. }
  rewrite !Rplus_0_l, E1, E2, E3, E4. rewrite E3 in Hh. field. repeat split; try lra.
Qed.
End Chem.

(** ** Derivatives of sums *)

Lemma derivable_over n (f : nat -> R -> R) (g : nat -> R) t :
  (forall i, (i < n)%nat -> derivable_pt_lim (f i) t (g i)) -> derivable_pt_lim (fun x => over n (fun i => f i x)) t (over n g).
Proof.
  revert f g. induction n as [|n IH]; intros f g H.
  - unfold over. cbn. apply derivable_pt_lim_const.
  - rewrite over_S. eapply derivable_pt_lim_ext; [intros x; symmetry; apply over_S|].
    apply (derivable_pt_lim_plus (f O) (fun x => over n (fun i => f (S i) x))); [apply H; lia|].
    apply (IH (fun i => f (S i)) (fun i => g (S i))). intros i Hi. apply H. lia.
Qed.

Lemma constant_on (f : R -> R) (a b : R) : a <= b -> (forall t, a <= t <= b -> derivable_pt_lim f t 0) -> f b = f a.
Proof.
  intros [L|E] H; [|subst; reflexivity]. destruct (MVT_cor2 f (fun _ => 0) a b L H) as (c & E & _). lra.
Qed.

(** ** Solutions of the chemistry *)

Section Solution.
Variable m : mechanism.
Notation M := (molarMasses m).
Notation n := (length M).
Notation R0 := (gasConstant m).

(** (T, c) solves the equations on [0, dt] for the density rho *)
Definition solves (rho dt : R) (T : R -> R) (c : R -> list R) : Prop :=
  forall t, 0 <= t <= dt ->
    length (c t) = n /\
    let f := OdeRhsAdvance m rho (fst (ThermoData m (T t))) (snd (ThermoData m (T t))) (T t) (c t) in
    derivable_pt_lim T t (fst f) /\
    forall i, (i < n)%nat -> derivable_pt_lim (fun x => entry (c x) i) t (entry (snd f) i).

(** the heat capacities are the derivatives of the enthalpies *)
Definition consistent_data : Prop :=
  forall T i, (i < n)%nat -> derivable_pt_lim (fun x => entry (fst (ThermoData m x)) i) T (entry (snd (ThermoData m T)) i).

(** reactions conserve mass *)
Definition conserves_mass : Prop :=
  forall c T p, length c = n -> mass_density M (ProductionRates m c T p) = 0.

Lemma rates_of rho h cp T c : snd (OdeRhsAdvance m rho h cp T c) = ProductionRates m c T (accumulate c * R0 * T).
Proof. unfold OdeRhsAdvance. destruct (fold_left _ _ _) as [[a b] d]. reflexivity. Qed.

Lemma mass_constant rho dt T c : solves rho dt T c -> conserves_mass -> forall t, 0 <= t <= dt -> mass_density M (c t) = mass_density M (c 0).
Proof.
  intros H K t Ht. apply (constant_on (fun x => mass_density M (c x)) 0 t); [lra|]. intros s Hs. destruct (H s ltac:(lra)) as (L & _ & D).
  rewrite <- (K (c s) (T s) (accumulate (c s) * R0 * T s) L). unfold mass_density at 1 2.
  apply (derivable_over n (fun i x => entry (c x) i * entry M i) (fun i => entry (ProductionRates m (c s) (T s) (accumulate (c s) * R0 * T s)) i * entry M i)).
  intros i Hi. specialize (D i Hi). rewrite rates_of in D.
  eapply derivable_pt_lim_ext; [intros x; apply Rmult_comm|]. rewrite Rmult_comm. apply (derivable_pt_lim_scal (fun x => entry (c x) i)). exact D.
Qed.

Lemma conc_pos c rho : length c = n -> nonneg c -> mass_density M c = rho -> 0 < rho -> 0 < total c.
Proof.
  intros L N E P. assert (0 <= total c).
  { rewrite total_over. apply over_nonneg. intros i Hi. apply N, nth_In. exact Hi. }
  destruct (Req_dec (total c) 0) as [Z|Z]; [|lra]. exfalso.
  assert (forall l : list R, nonneg l -> total l = 0 -> forall i, entry l i = 0) as A.
  { clear. induction l as [|x l IH]; intros Nl Z i; [destruct i; reflexivity|]. cbn [total] in Z.
    assert (0 <= x) by (apply Nl; left; reflexivity). assert (nonneg l) as N' by (intros y I; apply Nl; right; exact I).
    assert (0 <= total l) by (clear - N'; induction l as [|y l IH]; cbn [total]; [lra|]; assert (0 <= y) by (apply N'; left; reflexivity);
      assert (0 <= total l) by (apply IH; intros z I; apply N'; right; exact I); lra).
    destruct i as [|i]; [unfold entry; cbn; lra|]. apply (IH N'); lra. }
  assert (mass_density M c = 0); [|lra]. unfold mass_density.
  rewrite (over_ext n _ (fun i => 0 * entry M i)) by (intros i _; rewrite A by assumption; reflexivity). rewrite over_scale. ring.
Qed.

Lemma energy_constant rho dt T c : solves rho dt T c -> well_formed m -> conserves_mass -> consistent_data ->
  0 < rho -> mass_density M (c 0) = rho ->
  (forall t, 0 <= t <= dt -> nonneg (c t) /\ heat_density R0 M (snd (ThermoData m (T t))) (c t) <> 0) ->
  forall t, 0 <= t <= dt ->
  energy_density R0 M (fst (ThermoData m (T t))) (T t) (c t) = energy_density R0 M (fst (ThermoData m (T 0))) (T 0) (c 0).
Proof.
  intros H W K C P M0 Q t Ht. apply (constant_on (fun x => energy_density R0 M (fst (ThermoData m (T x))) (T x) (c x)) 0 t); [lra|].
  intros s Hs. destruct (H s ltac:(lra)) as (L & DT & D). destruct (Q s ltac:(lra)) as [N HD].
  assert (mass_density M (c s) = rho) as Ms by (rewrite (mass_constant rho dt T c H K s) by lra; exact M0).
  destruct (rhs_T m rho (T s) (c s) W L P Ms (conc_pos (c s) rho L N Ms P) HD) as [Ld E].
  set (f := OdeRhsAdvance m rho (fst (ThermoData m (T s))) (snd (ThermoData m (T s))) (T s) (c s)) in *.
  set (h := fun i x => entry (fst (ThermoData m (T x))) i).
  replace 0 with (over n (fun i => entry (snd f) i * (entry M i * entry (fst (ThermoData m (T s))) i - R0 * T s) +
      entry (c s) i * (entry M i * (entry (snd (ThermoData m (T s))) i * fst f) - R0 * fst f))).
  - unfold energy_density.
    apply (derivable_over n (fun i x => entry (c x) i * (entry M i * entry (fst (ThermoData m (T x))) i - R0 * T x))).
    intros i Hi.
    apply (derivable_pt_lim_mult (fun x => entry (c x) i) (fun x => entry M i * entry (fst (ThermoData m (T x))) i - R0 * T x)); [apply D; exact Hi|].
    apply (derivable_pt_lim_minus (fun x => entry M i * h i x) (fun x => R0 * T x)).
    + apply (derivable_pt_lim_scal (h i)). unfold h.
      apply (derivable_pt_lim_comp T (fun x => entry (fst (ThermoData m x)) i)); [exact DT|]. apply C. exact Hi.
    + apply (derivable_pt_lim_scal T). exact DT.
  - rewrite over_plus. change (over n (fun i => entry (snd f) i * (entry M i * entry (fst (ThermoData m (T s))) i - R0 * T s))) with
      (energy_density R0 M (fst (ThermoData m (T s))) (T s) (snd f)).
    rewrite (over_ext n (fun i => entry (c s) i * (entry M i * (entry (snd (ThermoData m (T s))) i * fst f) - R0 * fst f))
      (fun i => fst f * (entry (c s) i * (entry M i * entry (snd (ThermoData m (T s))) i - R0)))) by (intros i _; ring).
    rewrite over_scale. fold (heat_density R0 M (snd (ThermoData m (T s))) (c s)). rewrite E. ring.
Qed.
End Solution.

(** ** The cache *)

(** operations of a user *)
Inductive operation :=
| op_temperature (T : R) | op_density (rho : R) | op_pressure (p : R) | op_fractions (Y : list R) | op_moles (X : list R)
| op_enthalpies | op_advance (solver : ode_solver) (dt : R) | op_maxdT (solver : ode_solver) (dt : R).

Definition perform (m : mechanism) (r : reactor) (o : operation) : reactor :=
  match o with
  | op_temperature T => SetTemperature m T r
  | op_density rho => SetDensity rho r
  | op_pressure p => SetPressure m p r
  | op_fractions Y => SetMassFractions m Y r
  | op_moles X => SetMoleFractions m X r
  | op_enthalpies => GetEnthalpies m r
  | op_advance solver dt => Advance m solver dt r
  | op_maxdT solver dt => AdvanceAndFindMaxdT m solver dt r
  end.

Definition is_advance (o : operation) : bool := match o with op_advance _ _ | op_maxdT _ _ => true | _ => false end.

Section Cache.
Variable m : mechanism.

Definition cached (r : reactor) : Prop := enthalpies r = fst (ThermoData m (thermoTemp r)) /\ heat_capacities r = snd (ThermoData m (thermoTemp r)).

Lemma cached_update T r : cached r -> cached (UpdateThermoState m T r) /\ thermoTemp (UpdateThermoState m T r) = T.
Proof. intros H. unfold UpdateThermoState. destruct (Req_EM_T (thermoTemp r) T); [split; assumption|]. split; [split; reflexivity|reflexivity]. Qed.

Lemma update_keeps T r : massFractions (UpdateThermoState m T r) = massFractions r /\ moles (UpdateThermoState m T r) = moles r /\
  temperature (UpdateThermoState m T r) = temperature r /\ density (UpdateThermoState m T r) = density r.
Proof. unfold UpdateThermoState. destruct (Req_EM_T _ _); repeat split. Qed.

Lemma cached_evals evals : forall r, cached r -> let r' := fold_left (fun r T => rhs_cache m T r) evals r in
  cached r' /\ thermoTemp r' = last evals (thermoTemp r) /\ massFractions r' = massFractions r /\ moles r' = moles r /\
  temperature r' = temperature r /\ density r' = density r.
Proof.
  induction evals as [|T l IH]; intros r H r'; [repeat split; apply H|]. unfold r'. cbn [fold_left].
  destruct (cached_update T r H) as [C E]. destruct (IH (rhs_cache m T r) C) as (A1 & A2 & A3 & A4 & A5 & A6).
  destruct (update_keeps T r) as (B1 & B2 & B3 & B4). unfold rhs_cache in *. split; [exact A1|]. split.
  - rewrite A2, E. clear. revert T. induction l as [|y l IH]; intros T; [reflexivity|]. destruct l; [reflexivity|]. exact (IH T).
  - repeat split; congruence.
Qed.

Lemma cached_construct : cached (construct m) /\ thermoTemp (construct m) = 300 /\ temperature (construct m) = 300.
Proof.
  unfold construct. set (r0 := UpdateMolesFromMassFractions m _). 
  assert (cached (SetTemperature m 300 r0) /\ thermoTemp (SetTemperature m 300 r0) = 300 /\ temperature (SetTemperature m 300 r0) = 300) as A.
  { unfold SetTemperature, UpdateThermoState, r0, UpdateMolesFromMassFractions. cbn [thermoTemp]. destruct (Req_EM_T 0 300); [lra|]. repeat split. }
  exact A.
Qed.

Lemma cached_integrate solver dt r : cached r -> cached (Integrate m solver dt r).
Proof.
  intros H. unfold Integrate. destruct (solver dt (density r) (temperature r, moles r)) as [evals [T c]].
  destruct (cached_evals evals r H) as (A & _). exact A.
Qed.

Lemma cached_perform r o : cached r -> cached (perform m r o) /\
  (thermoTemp r = temperature r -> is_advance o = false -> thermoTemp (perform m r o) = temperature (perform m r o)).
Proof.
  intros H. destruct o as [T|rho|p|Y|X| |solver dt|solver dt]; cbn [perform is_advance].
  - unfold SetTemperature. match goal with |- cached (UpdateThermoState m T ?q) /\ _ => destruct (cached_update T q H) as [C E]; destruct (update_keeps T q) as (_ & _ & B & _) end.
    split; [exact C|]. intros _ _. rewrite E, B. reflexivity.
  - split; [exact H|]. intros E _. exact E.
  - split; [exact H|]. intros E _. exact E.
  - split; [exact H|]. intros E _. exact E.
  - split; [exact H|]. intros E _. exact E.
  - unfold GetEnthalpies. destruct (cached_update (temperature r) r H) as [C E]. split; [exact C|]. intros _ _. rewrite E. destruct (update_keeps (temperature r) r) as (_ & _ & B & _). congruence.
  - split; [|discriminate]. unfold Advance. destruct (Req_EM_T dt 0); [exact H|]. apply cached_integrate. exact H.
  - split; [|discriminate]. apply cached_integrate. exact H.
Qed.

Lemma cached_run ops : forall r, cached r -> cached (fold_left (perform m) ops r).
Proof. induction ops as [|o ops IH]; intros r H; [exact H|]. cbn [fold_left]. apply IH, cached_perform, H. Qed.

Lemma cached_run_T ops : forall r, cached r -> thermoTemp r = temperature r -> forallb (fun o => negb (is_advance o)) ops = true ->
  thermoTemp (fold_left (perform m) ops r) = temperature (fold_left (perform m) ops r).
Proof.
  induction ops as [|o ops IH]; intros r H E A; [exact E|]. cbn [fold_left forallb] in *. apply andb_prop in A. destruct A as [A1 A2].
  apply IH; [apply cached_perform, H| |exact A2]. apply (cached_perform r o H); [exact E|]. destruct (is_advance o); [discriminate|reflexivity].
Qed.

Lemma energy_of r : cached r -> thermoTemp r = temperature r -> length (massFractions r) = length (molarMasses m) ->
  length (fst (ThermoData m (temperature r))) = length (molarMasses m) ->
  GetInternalEnergy m r = over (length (molarMasses m))
    (fun i => entry (massFractions r) i * (entry (fst (ThermoData m (temperature r))) i - gasConstant m * temperature r / entry (molarMasses m) i)).
Proof.
  intros [C _] E L Lh. unfold GetInternalEnergy, GetEnthalpy, MeanY. rewrite fold_divided. rewrite C, E. 
  rewrite fold_weighted. rewrite weighted_over by congruence. rewrite divided_over by congruence. rewrite L.
  rewrite !Rplus_0_l.
  replace (gasConstant m * over (length (molarMasses m)) (fun i => entry (massFractions r) i / entry (molarMasses m) i) * temperature r)
    with (gasConstant m * temperature r * over (length (molarMasses m)) (fun i => entry (massFractions r) i / entry (molarMasses m) i)) by ring.
  rewrite <- over_scale, <- over_minus. apply over_ext. intros i _. unfold Rdiv. ring.
Qed.
End Cache.
