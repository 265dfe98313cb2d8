(** C108 - C113: the chemistry mechanisms Burke2012, Zhao2008Dme, Gri30, AramcoMech_DMEonly_74spec and AramcoMech_woC3H4_91spec *)
From Coq Require Import String List ZArith NArith QArith Qreals Reals Lra Lia Bool Sorted.
From Verif Require Import ReactorModel ReactorSpec ReactorProofs ReactorProofs3.
From Verif Require Import MechanismModel MechanismSpec MechanismProofs MechanismProofs2 MechanismProofs3 MechanismProofs4 MechanismProofs5 MechanismProofs6.
From Verif Require Import MechBurke MechZhao MechGri MechAramco74 MechAramco91.
Import ListNotations.
Local Open Scope R_scope.

Lemma in_zhao : In (zhao, zhao_labels) mechanisms. Proof. right; left; reflexivity. Qed.
Lemma in_burke : In (burke, burke_labels) mechanisms. Proof. left; reflexivity. Qed.

(** C108: no reaction makes or destroys atoms.  Whenever the production rates of a mechanism are numbers, those of every element
    add up to zero, where the atoms of a species are read off its formula; argon and helium take no part. *)
Theorem C108_elements :
  forall t labels, In (t, labels) mechanisms ->
    length (weights t) = length labels /\
    forall c T p cdot, ComputeProductionRates t c T p = Some cdot ->
      length cdot = length labels /\ (forall e, element_density labels e cdot = 0) /\
      forall dt e, length c = length labels -> element_density labels e (euler dt c cdot) = element_density labels e c.
Proof.
  intros t labels I. destruct (in_sizes t labels I) as [Lp Lw]. split; [exact Lw|]. intros c T p cdot E.
  assert (L : length cdot = length labels).
  { unfold ComputeProductionRates in E. destruct (reaction_rates t c T p); [|discriminate]. injection E as <-. rewrite map_length. exact Lp. }
  split; [exact L|]. assert (D : forall e, element_density labels e cdot = 0) by (intros e; exact (conserves_sound t labels c T p cdot e (in_conserve t labels I) E)).
  split; [exact D|]. intros dt e Lc. specialize (D e). unfold element_density in *. revert D.
  assert (G : forall a c cdot, length c = length cdot -> dot a (euler dt c cdot) = dot a c + dt * dot a cdot).
  { clear. induction a as [|x a IH]; intros c cdot L; [cbn; ring|]. destruct c as [|y c], cdot as [|z cdot]; try discriminate; [cbn; ring|].
    injection L as L. specialize (IH c cdot L). unfold euler in *. cbn [combine map dot fst snd]. rewrite IH. ring. }
  rewrite G by congruence. intros ->. ring.
Qed.

Print Assumptions C108_elements.

(** every label has at least one atom *)
Theorem C108_atoms : forall t labels, In (t, labels) mechanisms -> forall s, In s labels -> exists e, (0 < atoms e s)%Z.
Proof.
  assert (H : forallb (fun x => forallb (fun s => existsb (fun e => Z.ltb 0 (atoms e s)) elements) (snd x)) mechanisms = true) by (vm_cast_no_check (eq_refl true)).
  intros t labels I s Hs. pose proof (proj1 (forallb_forall _ mechanisms) H (t, labels) I) as H1. cbv beta in H1. cbn [snd] in H1.
  pose proof (proj1 (forallb_forall _ labels) H1 s Hs) as H2. cbv beta in H2. apply existsb_exists in H2. destruct H2 as (e & _ & He). exists e. apply Z.ltb_lt. exact He.
Qed.

Print Assumptions C108_atoms.

(** argon and helium are neither produced nor consumed *)
Theorem C108_noble_gases :
  forall t labels, In (t, labels) mechanisms -> forall s, nth s labels ""%string = "AR"%string \/ nth s labels ""%string = "HE"%string ->
    forall c T p cdot, ComputeProductionRates t c T p = Some cdot -> at_ cdot s = 0.
Proof.
  intros t labels I s Hs c T p cdot E. destruct (C108_elements t labels I) as [_ H]. destruct (H c T p cdot E) as (L & D & _). clear H.
  assert (U : exists e, (forall l, In l labels -> atoms e l <> 0%Z -> l = nth s labels ""%string) /\ atoms e (nth s labels ""%string) = 1%Z /\ NoDup labels).
  { assert (X : forallb (fun x => forallb (fun l => (Z.eqb (atoms El_AR l) 0 || String.eqb l "AR") && (Z.eqb (atoms El_HE l) 0 || String.eqb l "HE")) (snd x)
        && distinct (snd x)) mechanisms = true) by (vm_cast_no_check (eq_refl true)).
    pose proof (proj1 (forallb_forall _ mechanisms) X (t, labels) I) as Y. cbv beta in Y. cbn [snd] in Y. apply andb_true_iff in Y. destruct Y as [Y1 Y2].
    pose proof (distinct_NoDup labels Y2) as N. rewrite forallb_forall in Y1.
    destruct Hs as [-> | ->]; [exists El_AR|exists El_HE]; (split; [|split; [reflexivity|exact N]]); intros l Il Al; specialize (Y1 l Il);
      apply andb_true_iff in Y1; destruct Y1 as [Y3 Y4]; [clear Y4; rename Y3 into Y|clear Y3; rename Y4 into Y]; apply orb_true_iff in Y;
      (destruct Y as [Y|Y]; [apply Z.eqb_eq in Y; contradiction|apply String.eqb_eq in Y; exact Y]). }
  destruct U as (e & U1 & U2 & U3). specialize (D e). unfold element_density in D.
  assert (Ls : (s < length labels)%nat).
  { destruct (Nat.lt_ge_cases s (length labels)) as [X|X]; [exact X|]. rewrite nth_overflow in Hs by exact X. destruct Hs; discriminate. }
  clear Hs I E. revert s cdot L D U1 U2 U3 Ls. clear. induction labels as [|l labels IH]; intros s cdot L D U1 U2 U3 Ls; cbn in Ls; [lia|].
  destruct cdot as [|x cdot]; [discriminate|]. injection L as L. cbn [map dot] in D. inversion U3 as [|? ? N1 N2]; subst.
  assert (Z0 : forall ls (xs : list R), (forall k, In k ls -> atoms e k = 0%Z) -> dot (map (fun k => IZR (atoms e k)) ls) xs = 0).
  { clear. induction ls as [|k ls IH]; intros [|y ys] H; try reflexivity. cbn [map dot]. rewrite H by (left; reflexivity). rewrite IH by (intros; apply H; right; assumption). ring. }
  destruct s as [|s].
  - cbn [nth] in U1, U2. rewrite U2 in D. rewrite Z0 in D; [unfold at_; cbn [nth]; lra|]. intros k Ik. destruct (Z.eq_dec (atoms e k) 0) as [X|X]; [exact X|].
    exfalso. apply N1. rewrite <- (U1 k (or_intror Ik) X). exact Ik.
  - cbn [nth] in U1, U2. assert (atoms e l = 0%Z) as X.
    { destruct (Z.eq_dec (atoms e l) 0) as [X|X]; [exact X|]. exfalso. apply N1. rewrite (U1 l (or_introl eq_refl) X). apply nth_In. lia. }
    rewrite X in D. apply (IH s cdot L); [lra|intros k Ik; apply U1; right; exact Ik|exact U2|exact N2|lia].
Qed.

Print Assumptions C108_noble_gases.

(** C108 (solutions): along every solution of the equations of a reactor with one of these mechanisms the atoms of every element per
    volume stay the same as long as concentrations and temperature stay admissible *)
Theorem C108_solutions :
  forall t labels m rho dt T c, In (t, labels) mechanisms -> uses m t -> 0 < gasConstant m -> solves m rho dt T c ->
    (forall s, 0 <= s <= dt -> 0 < T s /\ (t = aramco74 \/ t = aramco91 -> T s <= 4600) /\ nonnegative (c s) /\ exists i, 0 < at_ (c s) i) ->
    forall e s, 0 <= s <= dt -> element_density labels e (c s) = element_density labels e (c 0).
Proof.
  intros t labels m rho dt T c I U R0 H Q e s Hs. unfold element_density. apply (solution_constant m t labels rho dt T c); try assumption.
  - intros x Hx. destruct (Q x Hx) as (A & B & C). split; [split; assumption|exact C].
  - apply map_length.
  - intros c' T' p' cdot E. exact (conserves_sound t labels c' T' p' cdot e (in_conserve t labels I) E).
Qed.

Print Assumptions C108_solutions.

(** hydrogen atoms react with HCCOH: something happens, but no atoms are lost *)
Example C108_example :
  exists cdot, ComputeProductionRates zhao mixture 1500 100000 = Some cdot /\ cdot <> repeat 0 55 /\ (forall e, element_density zhao_labels e cdot = 0).
Proof.
  destruct (mixture_rates 1500 100000 ltac:(lra) ltac:(lra)) as (cdot & E & M). exists cdot. split; [exact E|]. split.
  - intros ->. rewrite mass_zero in M. lra.
  - intros e. apply (proj2 (C108_elements zhao zhao_labels in_zhao) _ _ _ _ E).
Qed.
(** argon in a reactor *)
Example C108_solutions_example :
  uses burke_reactor burke /\ 0 < gasConstant burke_reactor /\ solves burke_reactor 40 1 (fun _ => 300) (fun _ => argon) /\ nonnegative argon /\ 0 < at_ argon 1.
Proof.
  split; [exact burke_uses|]. split; [cbn; lra|]. split; [apply argon_solves; lra|]. split; [exact argon_nonneg|cbn; lra].
Qed.

(** C109: species which are not there are not used up.  For concentrations up to B and temperatures in an interval the loss of a
    species is at most a constant times its concentration, so it is never negative at concentration zero and a short explicit step
    leaves all concentrations non-negative. *)
Theorem C109_loss :
  forall t labels, In (t, labels) mechanisms -> forall B T1 T2, 0 <= B -> 0 < T1 <= T2 -> (t = aramco74 \/ t = aramco91 -> T2 <= 4600) ->
    exists K, 0 <= K /\ forall c T p, Forall (fun x => 0 <= x <= B) c -> T1 <= T <= T2 -> 0 < p ->
      exists cdot, ComputeProductionRates t c T p = Some cdot /\ forall s, - (K * at_ c s) <= at_ cdot s.
Proof.
  intros t labels I B T1 T2 PB [P1 P2] A. destruct (in_loss t labels B T1 T2 I PB P1) as (K & K0 & K1); [split; [lra|exact A]|].
  exists K. split; [exact K0|]. intros c T p Hc HT Hp.
  destruct (in_defined t labels c T p I) as (cdot & E & _); [split; [lra|intros X; specialize (A X); lra]|exact Hp|exact (box_nonneg B c Hc)|].
  exists cdot. split; [exact E|]. intros s. exact (K1 c T p cdot s Hc HT Hp E).
Qed.

Print Assumptions C109_loss.

Lemma in_box c : nonnegative c -> Forall (fun x => 0 <= x <= fold_right Rplus 0 c) c.
Proof.
  intros H. assert (G : forall l, nonnegative l -> 0 <= fold_right Rplus 0 l) by (induction l as [|x l IH]; intros N; cbn; [lra|]; inversion N; subst; specialize (IH H3); lra).
  induction c as [|x c IH]; [constructor|]. inversion H as [|? ? H1 H2]; subst. pose proof (G c H2). cbn [fold_right]. constructor; [lra|].
  eapply Forall_impl; [|exact (IH H2)]. cbn. intros y Hy. lra.
Qed.

Theorem C109_absent :
  forall t labels, In (t, labels) mechanisms -> forall c T p cdot s, nonnegative c -> 0 < T -> (t = aramco74 \/ t = aramco91 -> T <= 4600) -> 0 < p ->
    ComputeProductionRates t c T p = Some cdot -> at_ c s = 0 -> 0 <= at_ cdot s.
Proof.
  intros t labels I c T p cdot s N HT A Hp E Z0. pose proof (in_box c N) as Bx. set (B := fold_right Rplus 0 c) in *.
  assert (PB : 0 <= B). { unfold B. clear - N. induction c as [|x c IH]; cbn; [lra|]. inversion N; subst. specialize (IH H2). lra. }
  destruct (C109_loss t labels I B T T PB ltac:(lra) A) as (K & K0 & K1).
  destruct (K1 c T p Bx ltac:(lra) Hp) as (cdot' & E' & L). rewrite E in E'. injection E' as <-. specialize (L s). rewrite Z0 in L. lra.
Qed.

Print Assumptions C109_absent.

Theorem C109_step :
  forall t labels, In (t, labels) mechanisms -> forall B T1 T2, 0 <= B -> 0 < T1 <= T2 -> (t = aramco74 \/ t = aramco91 -> T2 <= 4600) ->
    exists dtmax, 0 < dtmax /\ forall c T p dt, length c = length labels -> Forall (fun x => 0 <= x <= B) c -> T1 <= T <= T2 -> 0 < p -> 0 <= dt <= dtmax ->
      exists cdot, ComputeProductionRates t c T p = Some cdot /\ nonnegative (euler dt c cdot).
Proof.
  intros t labels I B T1 T2 PB HT A. destruct (C109_loss t labels I B T1 T2 PB HT A) as (K & K0 & K1). exists (/ (K + 1)).
  split; [apply Rinv_0_lt_compat; lra|]. intros c T p dt Lc Hc Ht Hp Hdt. destruct (K1 c T p Hc Ht Hp) as (cdot & E & L). exists cdot. split; [exact E|].
  pose proof (proj2 (C108_elements t labels I) _ _ _ _ E) as (Lcd & _). apply nonneg_at. intros s. rewrite at_euler by congruence. specialize (L s).
  pose proof (at_nonneg c s (box_nonneg B c Hc)) as C0. set (x := at_ c s) in *. set (y := at_ cdot s) in *. clearbody x y.
  assert (D : dt * (K + 1) <= 1). { apply Rle_trans with (/ (K + 1) * (K + 1)); [apply Rmult_le_compat_r; lra|rewrite Rinv_l; lra]. }
  destruct (Rle_dec 0 y) as [Y|Y]; [assert (0 <= dt * y) by (apply Rmult_le_pos; lra); lra|].
  assert (dt * (K * x) <= x). { replace (dt * (K * x)) with (dt * K * x) by ring. assert (dt * K <= 1) by lra. assert (dt * K * x <= 1 * x) by (apply Rmult_le_compat_r; lra). lra. }
  assert (dt * (- (K * x)) <= dt * y) by (apply Rmult_le_compat_l; lra). lra.
Qed.

Print Assumptions C109_step.

Example C109_example : length mixture = length zhao_labels /\ Forall (fun x => 0 <= x <= 2) mixture /\ at_ mixture 1 = 0 /\
  exists cdot, ComputeProductionRates zhao mixture 1500 100000 = Some cdot /\ 0 <= at_ cdot 1 /\ cdot <> repeat 0 55.
Proof.
  split; [reflexivity|]. split; [exact mixture_box|]. split; [reflexivity|]. destruct C108_example as (cdot & E & N & _). exists cdot. split; [exact E|]. split; [|exact N].
  apply (C109_absent zhao zhao_labels in_zhao mixture 1500 100000 cdot 1 (box_nonneg 2 _ mixture_box) ltac:(lra)); [|lra|exact E|reflexivity].
  intros _. lra.
Qed.

(** C110: reactions keep the mass, with the molar masses of the mechanism: exactly for Burke2012, up to the rounding of the decimal
    molar masses for Gri30 and the Aramco mechanisms *)
Theorem C110_mass_burke : forall c T p cdot, ComputeProductionRates burke c T p = Some cdot -> mass (weights burke) cdot = 0.
Proof. intros c T p cdot E. exact (balanced_exact burke burke_weights c T p cdot burke_mass E). Qed.

Print Assumptions C110_mass_burke.

Theorem C110_mass_rounded :
  forall t, t = gri \/ t = aramco74 \/ t = aramco91 -> forall c T p ws cdot,
    reaction_rates t c T p = Some ws -> ComputeProductionRates t c T p = Some cdot -> Rabs (mass (weights t) cdot) <= / 10 ^ 13 * sum_abs ws.
Proof.
  intros t H c T p ws cdot E1 E2. replace (/ 10 ^ 13) with (Q2R (1 # 10000000000000)) by (unfold Q2R; cbn [Qnum Qden]; rewrite Rmult_1_l; f_equal; rewrite (pow_IZR 10 13); reflexivity).
  destruct H as [-> | [-> | ->]]; unfold mass.
  - exact (balanced_sound gri gri_weights _ c T p ws cdot gri_mass E1 E2).
  - exact (balanced_sound aramco74 aramco74_weights _ c T p ws cdot aramco74_mass E1 E2).
  - exact (balanced_sound aramco91 aramco91_weights _ c T p ws cdot aramco91_mass E1 E2).
Qed.

Print Assumptions C110_mass_rounded.

(** C110 (solutions): mass along the solutions with Burke2012 *)
Theorem C110_solutions :
  forall m rho dt T c, uses m burke -> 0 < gasConstant m -> solves m rho dt T c ->
    (forall s, 0 <= s <= dt -> 0 < T s /\ nonnegative (c s) /\ exists i, 0 < at_ (c s) i) ->
    forall s, 0 <= s <= dt -> mass (weights burke) (c s) = mass (weights burke) (c 0).
Proof.
  intros m rho dt T c U R0 H Q s Hs. unfold mass. apply (solution_constant m burke burke_labels rho dt T c); try assumption.
  - exact in_burke.
  - intros x Hx. destruct (Q x Hx) as (A & B). split; [split; [exact A|]|exact B]. intros [X|X]; exfalso; apply (f_equal (fun t => length (weights t))) in X; vm_compute in X; discriminate.
  - reflexivity.
  - exact C110_mass_burke.
Qed.

Print Assumptions C110_solutions.

(** with Zhao2008Dme mass is lost: hydrogen atoms and HCCOH, at every temperature and pressure *)
Theorem C110_mass_zhao_refuted :
  forall c T p, 0 < T -> 0 < p -> nonnegative c -> 0 < at_ c 0 -> 0 < at_ c 27 -> (forall s, s <> 0%nat -> s <> 27%nat -> at_ c s = 0) ->
    nth 0 zhao_labels ""%string = "H"%string /\ nth 27 zhao_labels ""%string = "HCCOH"%string /\
    exists cdot, ComputeProductionRates zhao c T p = Some cdot /\ mass (weights zhao) cdot < 0.
Proof. intros c T p A B C D E F. split; [reflexivity|]. split; [reflexivity|]. exact (zhao_loss c T p A B C D E F). Qed.

Print Assumptions C110_mass_zhao_refuted.

(** the molar masses are those of the formulas up to 0.004 per atom, but for helium and HCCOH in some mechanisms *)
Theorem C110_molar_masses :
  forall t labels, In (t, labels) mechanisms -> forall s, (s < length labels)%nat ->
    ~ In (t, nth s labels ""%string) [(zhao, "HE"%string); (zhao, "HCCOH"%string); (aramco74, "HE"%string); (aramco91, "HE"%string)] ->
    Rabs (Q2R (nth s (weights t) 0%Q) - molecular_weight (nth s labels ""%string)) <= 0.004 * number_of_atoms (nth s labels ""%string).
Proof. intros t labels I s. exact (in_near t labels s I). Qed.

Print Assumptions C110_molar_masses.

(** those are off by more than 16 *)
Theorem C110_molar_masses_refuted :
  forall t labels name, In (t, labels, name) [(zhao, zhao_labels, "HE"%string); (zhao, zhao_labels, "HCCOH"%string);
    (aramco74, aramco74_labels, "HE"%string); (aramco91, aramco91_labels, "HE"%string)] ->
    In (t, labels) mechanisms /\ exists s, nth_error labels s = Some name /\ 16 < Q2R (nth s (weights t) 0%Q) - molecular_weight name.
Proof.
  assert (G : forall (t : tables) labels name s, nth_error labels s = Some name -> Qlt_bool 16 (nth s (weights t) 0%Q - formula_weight name) = true ->
    exists s, nth_error labels s = Some name /\ 16 < Q2R (nth s (weights t) 0%Q) - molecular_weight name).
  { intros t labels name s E H. exists s. split; [exact E|]. rewrite molecular_weight_Q, <- Q2R_minus. apply Qlt_bool_lt, Qlt_Rlt in H.
    replace (Q2R 16) with 16 in H by qr. exact H. }
  intros t labels name I. cbn [In] in I.
  destruct I as [I|[I|[I|[I|[]]]]]; pose proof (f_equal (fun x => fst (fst x)) I) as E1; pose proof (f_equal (fun x => snd (fst x)) I) as E2; pose proof (f_equal snd I) as E3;
    cbn [fst snd] in E1, E2, E3; subst t labels name; clear I.
  - split; [right; left; reflexivity|]. apply (G zhao zhao_labels _ 54%nat); vm_compute; reflexivity.
  - split; [right; left; reflexivity|]. apply (G zhao zhao_labels _ 27%nat); vm_compute; reflexivity.
  - split; [right; right; right; left; reflexivity|]. apply (G aramco74 aramco74_labels _ 74%nat); vm_compute; reflexivity.
  - split; [right; right; right; right; left; reflexivity|]. apply (G aramco91 aramco91_labels _ 65%nat); vm_compute; reflexivity.
Qed.

Print Assumptions C110_molar_masses_refuted.

Example C110_example : 0 < at_ mixture 0 /\ 0 < at_ mixture 27 /\ (forall s, s <> 0%nat -> s <> 27%nat -> at_ mixture s = 0) /\ nonnegative mixture /\
  (exists cdot, ComputeProductionRates burke (repeat 1 11) 1500 100000 = Some cdot /\ mass (weights burke) cdot = 0).
Proof.
  split; [cbn; lra|]. split; [cbn; lra|]. split; [exact mixture_else|]. split; [exact (box_nonneg 2 _ mixture_box)|].
  destruct (in_defined burke burke_labels (repeat 1 11) 1500 100000 in_burke) as (cdot & E & _).
  - split; [lra|]. intros _. lra.
  - lra.
  - cbn [repeat]. repeat (apply Forall_cons; [lra|]). apply Forall_nil.
  - exists cdot. split; [exact E|exact (C110_mass_burke _ _ _ _ E)].
Qed.

(** C111: for non-negative concentrations and positive temperature and pressure the rates are numbers *)
Theorem C111_rates_defined :
  forall t labels, In (t, labels) mechanisms -> forall c T p, nonnegative c -> 0 < T -> (t = aramco74 \/ t = aramco91 -> T <= 4600) -> 0 < p ->
    exists cdot, ComputeProductionRates t c T p = Some cdot /\ length cdot = length labels.
Proof. intros t labels I c T p N HT A Hp. apply in_defined; try assumption. split; assumption. Qed.

Print Assumptions C111_rates_defined.

(** the Aramco mechanisms give no rates from 5000 K on: the fall-off of C2H4 + H raises a negative number to a broken power *)
Theorem C111_hot_refuted :
  forall t c T p, t = aramco74 \/ t = aramco91 -> Forall (fun x => 0 <= x <= 1000000) c -> 5000 <= T -> ComputeProductionRates t c T p = None.
Proof. intros t c T p [-> | ->] Hc HT; apply hot_none; [exact aramco74_hot|exact Hc|exact HT|exact aramco91_hot|exact Hc|exact HT]. Qed.

Print Assumptions C111_hot_refuted.

Example C111_example : In (gri, gri_labels) mechanisms /\ nonnegative (repeat 1 53) /\ (forall x, gri = x -> x = aramco74 \/ x = aramco91 -> 6000 <= 4600) /\
  Forall (fun x => 0 <= x <= 1000000) (repeat 1 76) /\ ComputeProductionRates aramco74 (repeat 1 76) 5000 100000 = None.
Proof.
  assert (F : Forall (fun x => 0 <= x <= 1000000) (repeat 1 76)) by (cbn [repeat]; repeat (apply Forall_cons; [lra|]); apply Forall_nil).
  split; [right; right; left; reflexivity|]. split; [cbn [repeat]; repeat (apply Forall_cons; [lra|]); apply Forall_nil|]. split; [|split; [exact F|]].
  - intros x Ex [X|X]; exfalso; rewrite X in Ex; apply (f_equal (fun t => length (weights t))) in Ex; vm_compute in Ex; discriminate.
  - apply C111_hot_refuted; [left; reflexivity|exact F|lra].
Qed.

(** C112: rate coefficients in the fall-off lie between the harmonic mean of the limits of low and high pressure and fc times it *)
Theorem C112_falloff :
  forall v T p k0 kInf fc conc, 0 < T -> 0 < p -> 0 < k0 -> / 10 ^ 60 <= kInf -> 0 < fc <= 1 -> 0 < conc ->
    exists k, GetLindRateCoeff v T p k0 kInf fc conc = Some k /\
      fc * (1 / (1 / (k0 * conc) + 1 / kInf)) <= k <= 1 / (1 / (k0 * conc) + 1 / kInf).
Proof. exact falloff_bounds. Qed.

Print Assumptions C112_falloff.

(** tables over the pressure: the nearest entry outside of the table, between two neighbouring entries the logarithm of the coefficient
    is linear in the logarithm of the pressure *)
Theorem C112_plog :
  forall T p table P0 a0 Pn an pre P1 a1 P2 a2 post,
    StronglySorted Qlt (map fst table) -> (forall x, In x table -> (0 < fst x)%Q /\ 0 < arr T (snd x) <= DBL_MAX) ->
    hd_error table = Some (P0, a0) -> last table (P0, a0) = (Pn, an) ->
    (p <= Q2R P0 -> GetPlogRateCoeff T p table = Some (arr T a0)) /\
    (Q2R Pn <= p -> Q2R P0 < Q2R Pn -> GetPlogRateCoeff T p table = Some (arr T an)) /\
    (table = pre ++ (P1, a1) :: (P2, a2) :: post -> Q2R P1 <= p <= Q2R P2 -> / 10 ^ 60 <= arr T a1 -> / 10 ^ 60 <= arr T a2 ->
     exists k, GetPlogRateCoeff T p table = Some k /\ 0 < k /\
       (ln k - ln (arr T a1)) * (ln (Q2R P2) - ln (Q2R P1)) = (ln (arr T a2) - ln (arr T a1)) * (ln p - ln (Q2R P1))).
Proof.
  intros T p table P0 a0 Pn an pre P1 a1 P2 a2 post So Po Hd La. destruct table as [|x rest]; [discriminate|]. cbn in Hd. injection Hd as ->.
  split; [|split].
  - intros Hp. unfold GetPlogRateCoeff. rewrite La. destruct (Rle_dec p (Q2R P0)); [|contradiction]. rewrite MIN_le; [reflexivity|]. apply (Po (P0, a0)). left; reflexivity.
  - intros Hp H0. unfold GetPlogRateCoeff. rewrite La. destruct (Rle_dec p (Q2R P0)); [lra|]. destruct (Rle_dec (Q2R Pn) p); [|contradiction].
    rewrite MIN_le; [reflexivity|]. apply (Po (Pn, an)). rewrite <- La. apply last_in. discriminate.
  - intros E Hp K1 K2. assert (I1 : In (P1, a1) ((P0, a0) :: rest)) by (rewrite E; apply in_or_app; right; left; reflexivity).
    assert (I2 : In (P2, a2) ((P0, a0) :: rest)) by (rewrite E; apply in_or_app; right; right; left; reflexivity).
    exists (between (arr T a1) (arr T a2) (Q2R P1) (Q2R P2) p). split; [|split; [apply exp_pos|]].
    + apply (plog_between T p _ pre P1 a1 P2 a2 post So); [intros x Ix; apply (Po x Ix)|exact E|exact Hp|split; [exact K1|apply (Po _ I1)]|split; [exact K2|apply (Po _ I2)]].
    + unfold between. rewrite ln_exp. assert (Q2R P1 < Q2R P2) by (apply Qlt_Rlt; rewrite E in So; exact (sorted_at _ _ _ _ _ _ So)).
      destruct (Po _ I1) as [X _]. cbn [fst] in X. apply Q2R_pos in X. assert (ln (Q2R P1) < ln (Q2R P2)) by (apply ln_increasing; assumption). field. lra.
Qed.

Print Assumptions C112_plog.

(** all tables of the mechanisms have this form *)
Theorem C112_tables :
  forall t labels, In (t, labels) mechanisms -> forall table fs, In (Plog table, fs) (reactions t) ->
    table <> [] /\ StronglySorted Qlt (map fst table) /\ forall x T, In x table -> (0 < fst x)%Q /\ 0 < arr T (snd x).
Proof.
  intros t labels I table fs H. destruct (in_fine t labels I) as (limited & F & _). unfold fine in F. apply andb_true_iff in F. destruct F as [_ F].
  pose proof (proj1 (forallb_forall _ (reactions t)) F _ H) as G. cbn [fst coefficient_fine] in G. destruct table as [|[P a] rest]; [discriminate|].
  rewrite !andb_true_iff in G. destruct G as [[[G1 G2] G3] G4]. split; [discriminate|]. pose proof (increasing_sorted P a rest G2) as So. split; [exact So|].
  apply Qlt_bool_lt in G1. rewrite forallb_forall in G4. intros x T [<-|Ix]; [split; [exact G1|apply arr_fine_pos; exact G3]|].
  split; [|apply arr_fine_pos, G4, Ix]. eapply Qlt_trans; [exact G1|]. exact (sorted_first P a rest x So Ix).
Qed.

Print Assumptions C112_tables.

Example C112_example :
  (0 < 1 / 2 <= 1 /\ / 10 ^ 60 <= 3) /\
  let table := [(1%Q, Arr 2 0 0); (10%Q, Arr 3 0 0)] in
  StronglySorted Qlt (map fst table) /\ (forall x, In x table -> (0 < fst x)%Q /\ 0 < arr 1000 (snd x) <= DBL_MAX) /\ table = [] ++ (1%Q, Arr 2 0 0) :: (10%Q, Arr 3 0 0) :: [] /\
  / 10 ^ 60 <= arr 1000 (Arr 2 0 0) /\ / 10 ^ 60 <= arr 1000 (Arr 3 0 0).
Proof.
  assert (T60 : / 10 ^ 60 <= 1). { rewrite <- Rinv_1. apply Rinv_le_contravar; [lra|]. apply pow_R1_Rle. lra. }
  split; [split; [lra|]; apply Rle_trans with 1; [exact T60|lra]|]. cbv zeta.
  assert (A : forall q, arr 1000 (Arr q 0 0) = Q2R q).
  { intros q. unfold arr. cbn [pre power activation]. replace (Q2R 0 * ln 1000 - Q2R 0 / (RGAS * 1000)) with 0 by (rewrite RMicromega.Q2R_0; unfold Rdiv; ring). rewrite exp_0. ring. }
  assert (D : 3 <= DBL_MAX) by (apply IZR_le; apply Z.leb_le; vm_compute; reflexivity).
  assert (Q2 : Q2R 2 = 2) by qr. assert (Q3 : Q2R 3 = 3) by qr.
  split; [cbn; repeat constructor|]. split; [|split; [reflexivity|]].
  - intros x [<-|[<-|[]]]; cbn [fst snd]; rewrite A; rewrite ?Q2, ?Q3; (split; [reflexivity|split; [lra|]]); eapply Rle_trans; [|exact D| |exact D]; lra.
  - rewrite !A, Q2, Q3. split; (eapply Rle_trans; [exact T60|lra]).
Qed.

(** C113: with Burke2012 and AramcoMech_woC3H4_91spec every species is found under its formula: texts which name species are accepted *)
Theorem C113_names :
  forall labels ns, (labels = burke_labels /\ ns = burke_names) \/ (labels = aramco91_labels /\ ns = aramco91_names) ->
    (forall i, (i < length labels)%nat -> species_index (nth i labels ""%string) ns 0 = Some i) /\
    forall m r entries, names m = ns -> (forall x, In x entries -> In (fst x) labels) -> snd (SetMassFractionsString m entries r) = true.
Proof.
  assert (G : forall labels ns, found labels ns = true -> (forall i, (i < length labels)%nat -> species_index (nth i labels ""%string) ns 0 = Some i) /\
    forall m r entries, names m = ns -> (forall x, In x entries -> In (fst x) labels) -> snd (SetMassFractionsString m entries r) = true).
  { intros labels ns H. split; [exact (found_spec labels ns H)|]. intros m r entries E I. unfold SetMassFractionsString.
    destruct (assign_ok m entries (map (fun _ => 0) (massFractions r)) 0) as (Y & sum & X).
    - intros x Ix. rewrite E. apply (found_in labels ns _ H). apply I, Ix.
    - rewrite X. reflexivity. }
  intros labels ns [[-> ->]|[-> ->]]; apply G; [exact burke_found|exact aramco91_found].
Qed.

Print Assumptions C113_names.

(** with Gri30 and Zhao2008Dme texts with oxygen and hydrogen atoms or OH are refused: the names of these species end with a blank; the
    name of O2CH2OCH2O2H is cut off in AramcoMech_DMEonly_74spec *)
Theorem C113_names_refuted :
  forall labels ns name, In (labels, ns, name) [(gri_labels, gri_names, "O"%string); (gri_labels, gri_names, "H"%string); (gri_labels, gri_names, "HO2"%string);
      (zhao_labels, zhao_names, "OH"%string); (aramco74_labels, aramco74_names, "O2CH2OCH2O2H"%string)] ->
    In name labels /\ forall m r entries v, names m = ns -> In (name, v) entries -> snd (SetMassFractionsString m entries r) = false.
Proof.
  assert (G : forall labels ns name, existsb (String.eqb name) labels = true -> (match species_index name ns 0 with None => true | _ => false end) = true ->
    In name labels /\ forall m r entries v, names m = ns -> In (name, v) entries -> snd (SetMassFractionsString m entries r) = false).
  { intros labels ns name H1 H2. split.
    - apply existsb_exists in H1. destruct H1 as (x & Ix & Hx). apply String.eqb_eq in Hx. rewrite Hx. exact Ix.
    - intros m r entries v E I. unfold SetMassFractionsString.
      assert (X : forall es Y s, In (name, v) es -> snd (assign_entries m es Y s) = None).
      { induction es as [|[n w] es IH]; intros Y s J; [destruct J|]. cbn [assign_entries]. destruct J as [J|J].
        - injection J as -> ->. rewrite E. destruct (species_index name ns 0); [discriminate|reflexivity].
        - destruct (species_index n (names m) 0); [apply IH; exact J|reflexivity]. }
      specialize (X entries (map (fun _ => 0) (massFractions r)) 0 I). destruct (assign_entries m entries _ 0) as [Y [s|]]; [discriminate|reflexivity]. }
  intros labels ns name I. cbn [In] in I.
  destruct I as [I|[I|[I|[I|[I|[]]]]]]; pose proof (f_equal (fun x => fst (fst x)) I) as E1; pose proof (f_equal (fun x => snd (fst x)) I) as E2; pose proof (f_equal snd I) as E3;
    cbn [fst snd] in E1, E2, E3; subst labels ns name; clear I; apply G; vm_compute; reflexivity.
Qed.

Print Assumptions C113_names_refuted.

Example C113_example : names burke_reactor = burke_names /\ (forall x, In x [("H2"%string, 0.1); ("O2"%string, 0.9)] -> In (fst x) burke_labels).
Proof. split; [reflexivity|]. intros x [<-|[<-|[]]]; cbn; tauto. Qed.
