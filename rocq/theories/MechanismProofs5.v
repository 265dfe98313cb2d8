(** The checks of the five mechanisms, and what follows for time steps and solutions *)
From Coq Require Import String List ZArith NArith QArith Qreals Reals Lra Lia Bool.
From Verif Require Import ReactorModel ReactorSpec ReactorProofs ReactorProofs3.
From Verif Require Import MechanismModel MechanismSpec MechanismProofs MechanismProofs2 MechanismProofs3 MechanismProofs4.
From Verif Require Import MechBurke MechZhao MechGri MechAramco74 MechAramco91.
Import ListNotations.
Local Open Scope R_scope.

(** The mechanisms with the labels of their species *)
Definition mechanisms : list (tables * list string) :=
  [(burke, burke_labels); (zhao, zhao_labels); (gri, gri_labels); (aramco74, aramco74_labels); (aramco91, aramco91_labels)].

(** ** Checks *)
Lemma all_conserve : forallb (fun x => conserves (fst x) (snd x)) mechanisms = true.
Proof. vm_cast_no_check (eq_refl true). Qed.
Lemma all_sizes : forallb (fun x => (length (production (fst x)) =? length (snd x))%nat && (length (weights (fst x)) =? length (snd x))%nat) mechanisms = true.
Proof. vm_cast_no_check (eq_refl true). Qed.
Lemma all_present : forallb (fun x => consumes_present (fst x)) mechanisms = true.
Proof. vm_cast_no_check (eq_refl true). Qed.
Lemma burke_fine : fine false burke = true. Proof. vm_cast_no_check (eq_refl true). Qed.
Lemma zhao_fine : fine false zhao = true. Proof. vm_cast_no_check (eq_refl true). Qed.
Lemma gri_fine : fine false gri = true. Proof. vm_cast_no_check (eq_refl true). Qed.
Lemma aramco74_fine : fine true aramco74 = true. Proof. vm_cast_no_check (eq_refl true). Qed.
Lemma aramco91_fine : fine true aramco91 = true. Proof. vm_cast_no_check (eq_refl true). Qed.
Lemma burke_mass : balanced burke burke_weights 0 = true. Proof. vm_cast_no_check (eq_refl true). Qed.
Lemma gri_mass : balanced gri gri_weights (1 # 10000000000000) = true. Proof. vm_cast_no_check (eq_refl true). Qed.
Lemma aramco74_mass : balanced aramco74 aramco74_weights (1 # 10000000000000) = true. Proof. vm_cast_no_check (eq_refl true). Qed.
Lemma aramco91_mass : balanced aramco91 aramco91_weights (1 # 10000000000000) = true. Proof. vm_cast_no_check (eq_refl true). Qed.
Lemma zhao_loses : loses zhao zhao_weights [0; 27]%nat = true. Proof. vm_cast_no_check (eq_refl true). Qed.
Lemma zhao_loses_139 : Z.ltb (get 278 (nets (map scale zhao_weights) zhao_production Leaf)) 0 = true. Proof. vm_cast_no_check (eq_refl true). Qed.
Lemma aramco74_hot : gets_hot aramco74 = true. Proof. vm_cast_no_check (eq_refl true). Qed.
Lemma aramco91_hot : gets_hot aramco91 = true. Proof. vm_cast_no_check (eq_refl true). Qed.

Lemma in_conserve t labels : In (t, labels) mechanisms -> conserves t labels = true.
Proof. exact (proj1 (forallb_forall (fun x => conserves (fst x) (snd x)) mechanisms) all_conserve (t, labels)). Qed.
Lemma in_sizes t labels : In (t, labels) mechanisms -> length (production t) = length labels /\ length (weights t) = length labels.
Proof.
  intros I. pose proof (proj1 (forallb_forall _ mechanisms) all_sizes (t, labels) I) as H. cbn [fst snd] in H.
  apply andb_true_iff in H. destruct H as [H1 H2]. apply Nat.eqb_eq in H1, H2. auto.
Qed.
Lemma in_present t labels : In (t, labels) mechanisms -> consumes_present t = true.
Proof. exact (proj1 (forallb_forall (fun x => consumes_present (fst x)) mechanisms) all_present (t, labels)). Qed.

(** The temperature up to which the rates of a mechanism are numbers *)
Definition admissible (t : tables) (T : R) : Prop := 0 < T /\ (t = aramco74 \/ t = aramco91 -> T <= 4600).

Lemma in_fine t labels : In (t, labels) mechanisms -> exists limited, fine limited t = true /\ forall T, admissible t T -> 0 < T /\ (limited = true -> T <= 4600).
Proof.
  intros I. cbn [mechanisms In] in I. unfold admissible.
  destruct I as [I|[I|[I|[I|[I|[]]]]]]; pose proof (f_equal fst I) as E; cbn [fst] in E; rewrite <- E.
  1-3: exists false; split; [first [exact burke_fine|exact zhao_fine|exact gri_fine]|intros T [A _]; split; [exact A|discriminate]].
  all: exists true; split; [first [exact aramco74_fine|exact aramco91_fine]|intros T [A B]; split; [exact A|intros _; apply B; auto]].
Qed.

Lemma in_defined t labels c T p : In (t, labels) mechanisms -> admissible t T -> 0 < p -> nonnegative c ->
  exists cdot, ComputeProductionRates t c T p = Some cdot /\ length cdot = length labels.
Proof.
  intros I A B C. destruct (in_fine t labels I) as (limited & F & G). destruct (G T A) as [G1 G2].
  rewrite <- (proj1 (in_sizes t labels I)). exact (fine_defined limited t c T p F G1 G2 B C).
Qed.

(** ** Bounds of the losses for all species at once *)
Lemma uniform (P : nat -> R -> Prop) (n : nat) : (forall s K K', P s K -> K <= K' -> P s K') ->
  (forall s, (s < n)%nat -> exists K, 0 <= K /\ P s K) -> exists K, 0 <= K /\ forall s, (s < n)%nat -> P s K.
Proof.
  intros M. induction n as [|n IH]; intros H; [exists 0; split; [lra|lia]|]. destruct IH as (K & K0 & K1); [intros s Hs; apply H; lia|].
  destruct (H n ltac:(lia)) as (K' & K0' & K1'). exists (Rmax K K'). split; [eapply Rle_trans; [exact K0|apply Rmax_l]|]. intros s Hs.
  destruct (Nat.eq_dec s n) as [-> | E]; [apply (M n K' _ K1'), Rmax_r|apply (M s K); [apply K1; lia|apply Rmax_l]].
Qed.

Lemma in_loss t labels B T1 T2 : In (t, labels) mechanisms -> 0 <= B -> 0 < T1 -> admissible t T2 ->
  exists K, 0 <= K /\ forall c T p cdot s, Forall (fun x => 0 <= x <= B) c -> T1 <= T <= T2 -> 0 < p ->
    ComputeProductionRates t c T p = Some cdot -> - (K * at_ c s) <= at_ cdot s.
Proof.
  intros I PB P1 A2. destruct (in_fine t labels I) as (limited & F & G). destruct (G T2 A2) as [G1 G2].
  destruct (uniform (fun s K => forall c T p cdot, Forall (fun x => 0 <= x <= B) c -> T1 <= T <= T2 -> 0 < p ->
    ComputeProductionRates t c T p = Some cdot -> - (K * at_ c s) <= at_ cdot s) (length (production t))) as (K & K0 & K1).
  - intros s K K' H L c T p cdot Hc HT Hp E. specialize (H c T p cdot Hc HT Hp E). pose proof (at_nonneg c s (box_nonneg B c Hc)). nra.
  - intros s Hs. destruct (loss_bound limited t B T1 T2 s F (in_present t labels I) PB P1 Hs) as (K & K0 & K1). exists K. split; [exact K0|].
    intros c T p cdot Hc HT Hp E. apply (K1 c T p cdot Hc HT); [intros L; specialize (G2 L); lra|exact Hp|exact E].
  - exists K. split; [exact K0|]. intros c T p cdot s Hc HT Hp E. destruct (Nat.lt_ge_cases s (length (production t))) as [L|L].
    + exact (K1 s L c T p cdot Hc HT Hp E).
    + assert (at_ cdot s = 0) as ->.
      { unfold at_. apply nth_overflow. unfold ComputeProductionRates in E. destruct (reaction_rates t c T p); [|discriminate]. injection E as <-. rewrite map_length. exact L. }
      pose proof (at_nonneg c s (box_nonneg B c Hc)). nra.
Qed.

(** One explicit step *)
Definition euler (dt : R) (c cdot : list R) : list R := map (fun x => fst x + dt * snd x) (combine c cdot).
Lemma at_euler dt c cdot s : length c = length cdot -> at_ (euler dt c cdot) s = at_ c s + dt * at_ cdot s.
Proof.
  revert cdot s. induction c as [|x c IH]; intros [|y cdot] s L; try discriminate; [destruct s; cbn; ring|]. injection L as L. destruct s as [|s]; [reflexivity|]. exact (IH cdot s L).
Qed.
Lemma nonneg_at l : (forall s, 0 <= at_ l s) -> nonnegative l.
Proof. intros H. apply Forall_forall. intros x I. destruct (In_nth l x 0 I) as (s & _ & <-). apply H. Qed.

(** ** Solutions of the equations of the reactor *)
Lemma dot_over a b : length a = length b -> dot a b = over (length a) (fun i => entry b i * entry a i).
Proof.
  revert b. induction a as [|x a IH]; intros [|y b] L; try discriminate; [reflexivity|]. injection L as L. cbn [dot length]. rewrite over_S, IH by exact L. unfold entry; cbn [nth]. ring.
Qed.

(** the reactor uses the rates of the mechanism t *)
Definition uses (m : mechanism) (t : tables) : Prop :=
  molarMasses m = map Q2R (weights t) /\
  forall c T p cdot, ComputeProductionRates t c T p = Some cdot -> ProductionRates m c T p = cdot.

Lemma accumulate_pos c : nonnegative c -> (exists s, 0 < at_ c s) -> 0 < accumulate c.
Proof.
  intros H [s Hs]. unfold accumulate. assert (G : forall l a, nonnegative l -> 0 <= a -> (0 < a \/ exists s, 0 < at_ l s) -> 0 < fold_left Rplus l a).
  { clear. induction l as [|x l IH]; intros a N A P; cbn; [destruct P as [P|[[|s] P]]; [exact P|cbn in P; lra|cbn in P; lra]|].
    inversion N as [|? ? N1 N2]; subst. apply IH; [exact N2|lra|]. destruct P as [P|[[|s] P]]; [left; lra|cbn in P; left; lra|right; exists s; exact P]. }
  apply G; [exact H|lra|right; exists s; exact Hs].
Qed.

Lemma solution_constant m t labels rho dt T c (a : list R) : In (t, labels) mechanisms -> uses m t -> 0 < gasConstant m -> solves m rho dt T c ->
  (forall s, 0 <= s <= dt -> admissible t (T s) /\ nonnegative (c s) /\ exists i, 0 < at_ (c s) i) ->
  length a = length labels -> (forall c T p cdot, ComputeProductionRates t c T p = Some cdot -> dot a cdot = 0) ->
  forall s, 0 <= s <= dt -> dot a (c s) = dot a (c 0).
Proof.
  intros I [U1 U2] R0 H Q La D s Hs. destruct (in_sizes t labels I) as [Lp Lw].
  assert (n : length (molarMasses m) = length a) by (rewrite U1, map_length; congruence).
  assert (Lc : forall x, 0 <= x <= dt -> length (c x) = length a) by (intros x Hx; destruct (H x Hx) as (L & _); congruence).
  rewrite (dot_over a (c s)) by (symmetry; apply Lc; exact Hs). rewrite (dot_over a (c 0)) by (symmetry; apply Lc; lra).
  apply (constant_on (fun x => over (length a) (fun i => entry (c x) i * entry a i)) 0 s); [lra|]. intros x Hx. destruct (H x ltac:(lra)) as (L & _ & Dx).
  destruct (Q x ltac:(lra)) as (A & N & P).
  assert (Pp : 0 < accumulate (c x) * gasConstant m * T x).
  { apply Rmult_lt_0_compat; [apply Rmult_lt_0_compat; [apply accumulate_pos; assumption|exact R0]|apply A]. }
  destruct (in_defined t labels (c x) (T x) _ I A Pp N) as (cdot & E & Lcd).
  rewrite <- (D _ _ _ _ E), (dot_over a cdot) by congruence.
  apply (derivable_over (length a) (fun i y => entry (c y) i * entry a i) (fun i => entry cdot i * entry a i)).
  intros i Hi. rewrite <- n in Hi. specialize (Dx i Hi). rewrite ReactorProofs3.rates_of in Dx. rewrite (U2 _ _ _ _ E) in Dx.
  eapply derivable_pt_lim_ext; [intros y; apply Rmult_comm|]. rewrite Rmult_comm. apply (derivable_pt_lim_scal (fun y => entry (c y) i)). exact Dx.
Qed.
