(** Examples for the mechanisms, fall-off and names *)
From Coq Require Import String List ZArith NArith QArith Qreals Reals Lra Lia Bool Sorted.
From Verif Require Import ReactorModel ReactorSpec ReactorProofs ReactorProofs3.
From Verif Require Import MechanismModel MechanismSpec MechanismProofs MechanismProofs2 MechanismProofs3 MechanismProofs4 MechanismProofs5.
From Verif Require Import MechBurke MechZhao MechGri MechAramco74 MechAramco91.
Import ListNotations.
Local Open Scope R_scope.

Lemma zhao_139 : exists k, nth_error (reactions zhao) 277 = Some (Simple k, [Conc 0; Conc 27]).
Proof. eexists. vm_compute. reflexivity. Qed.

Lemma zhao_loss c T p : 0 < T -> 0 < p -> nonnegative c -> 0 < at_ c 0 -> 0 < at_ c 27 -> (forall s, s <> 0%nat -> s <> 27%nat -> at_ c s = 0) ->
  exists cdot, ComputeProductionRates zhao c T p = Some cdot /\ mass zhao_weights cdot < 0.
Proof.
  intros A B C D E F. destruct zhao_139 as [k Ek].
  refine (loses_spec false zhao zhao_weights [0; 27]%nat c T p 277 k [Conc 0; Conc 27] zhao_fine zhao_loses A _ B C _ Ek zhao_loses_139 _).
  - discriminate.
  - intros s Hs. apply F; intros ->; apply Hs; [left; reflexivity|right; left; reflexivity].
  - unfold factors_value. cbn [fold_right factor_value]. rewrite Rmult_1_r. apply Rmult_lt_0_compat; assumption.
Qed.

(** hydrogen atoms and HCCOH *)
Definition mixture : list R := 1 :: repeat 0 26 ++ 2 :: repeat 0 27.
Lemma mixture_length : length mixture = 55%nat. Proof. reflexivity. Qed.
Lemma mixture_box : Forall (fun x => 0 <= x <= 2) mixture.
Proof. unfold mixture. repeat (apply Forall_cons; [lra|]). apply Forall_nil. Qed.
Lemma mixture_else s : s <> 0%nat -> s <> 27%nat -> at_ mixture s = 0.
Proof.
  intros A B. unfold at_. destruct (Nat.lt_ge_cases s 55) as [L|L]; [|apply nth_overflow; exact L]. unfold mixture.
  do 55 (destruct s as [|s]; [first [contradiction|reflexivity]|]). lia.
Qed.
Lemma mixture_rates T p : 0 < T -> 0 < p -> exists cdot, ComputeProductionRates zhao mixture T p = Some cdot /\ mass zhao_weights cdot < 0.
Proof.
  intros A B. apply zhao_loss; [exact A|exact B|exact (box_nonneg 2 _ mixture_box)|cbn; lra|cbn; lra|exact mixture_else].
Qed.
Lemma mass_zero W n : mass W (repeat 0 n) = 0.
Proof. unfold mass. revert n. induction W as [|w W IH]; intros [|n]; cbn; try reflexivity. cbn in IH. rewrite IH. ring. Qed.

(** argon *)
Definition argon : list R := 0 :: 1 :: repeat 0 9.
Lemma argon_supp : forallb (fun x => negb (supported [1%nat] (snd x))) (reactions burke) = true.
Proof. vm_cast_no_check (eq_refl true). Qed.
Lemma argon_nonneg : nonnegative argon.
Proof. unfold argon. repeat (apply Forall_cons; [lra|]). apply Forall_nil. Qed.
Lemma argon_else s : ~ In s [1%nat] -> at_ argon s = 0.
Proof.
  intros A. unfold at_. destruct (Nat.lt_ge_cases s 11) as [L|L]; [|apply nth_overflow; exact L]. unfold argon.
  do 11 (destruct s as [|s]; [first [exfalso; apply A; left; reflexivity|reflexivity]|]). lia.
Qed.
Lemma argon_rates T p : 0 < T -> 0 < p -> ComputeProductionRates burke argon T p = Some (repeat 0 11).
Proof.
  intros A B. destruct (fine_rates false burke argon T p burke_fine A ltac:(discriminate) B argon_nonneg) as (ws & E & W).
  unfold ComputeProductionRates. rewrite E. f_equal.
  assert (Zr : forall r, at_ ws r = 0).
  { intros r. destruct (W r) as [_ W2]. destruct (nth_error (reactions burke) r) as [[k fs]|] eqn:Er.
    - destruct (W2 k fs eq_refl) as (kv & _ & ->). rewrite (unsupported_zero argon _ [1%nat] fs argon_else); [ring|].
      pose proof (proj1 (forallb_forall _ (reactions burke)) argon_supp _ (nth_error_In _ _ Er)) as X. apply negb_true_iff in X. exact X.
    - unfold at_. apply nth_overflow. rewrite (reaction_rates_length _ _ _ _ _ E). apply nth_error_None. exact Er. }
  assert (P : forall l, production_of ws l = 0).
  { induction l as [|x l IH]; [reflexivity|]. cbn. fold (production_of ws l). rewrite IH, Zr. ring. }
  transitivity (map (fun _ : list (Z * N) => 0) (production burke)); [apply map_ext; exact P|reflexivity].
Qed.

(** a reactor with the rates of Burke2012 *)
Definition burke_reactor : mechanism :=
  mkMechanism burke_names (map Q2R burke_weights) 8314.462175 (fun _ => (repeat 0 11, repeat 1000 11))
    (fun c T p => match ComputeProductionRates burke c T p with Some cdot => cdot | None => repeat 0 11 end).
Lemma burke_uses : uses burke_reactor burke.
Proof. split; [reflexivity|]. intros c T p cdot E. cbn [ProductionRates burke_reactor]. rewrite E. reflexivity. Qed.
Lemma over_zero n f : (forall i, f i = 0) -> over n f = 0.
Proof. intros H. rewrite (over_ext n f (fun i => 0 * 0)) by (intros; rewrite H; ring). rewrite over_scale. ring. Qed.
Lemma argon_solves rho dt T : 0 < T -> solves burke_reactor rho dt (fun _ => T) (fun _ => argon).
Proof.
  intros A t _. split; [reflexivity|].
  assert (P : ProductionRates burke_reactor argon T (accumulate argon * gasConstant burke_reactor * T) = repeat 0 11).
  { apply (proj2 burke_uses). apply argon_rates; [exact A|]. apply Rmult_lt_0_compat; [|exact A]. apply Rmult_lt_0_compat; [|cbn; lra].
    apply accumulate_pos; [exact argon_nonneg|exists 1%nat; cbn; lra]. }
  set (f := OdeRhsAdvance _ _ _ _ _ _). assert (F : fst f = 0 /\ snd f = repeat 0 11).
  { subst f. unfold OdeRhsAdvance. rewrite P. rewrite rhs_loop by reflexivity. cbn [fst snd]. split; [|reflexivity].
    rewrite over_zero; [unfold Rdiv; ring|]. intros i. assert (entry (repeat 0 11) i = 0) as ->; [|ring]. unfold entry.
    do 11 (destruct i as [|i]; [reflexivity|]). destruct i; reflexivity. }
  destruct F as [F1 F2]. split; [rewrite F1; apply derivable_pt_lim_const|]. intros i _. rewrite F2.
  assert (entry (repeat 0 11) i = 0) as ->; [unfold entry; do 11 (destruct i as [|i]; [reflexivity|]); destruct i; reflexivity|apply derivable_pt_lim_const].
Qed.

(** ** Fall-off *)
Lemma falloff_bounds v T p k0 kInf fc conc : 0 < T -> 0 < p -> 0 < k0 -> / 10 ^ 60 <= kInf -> 0 < fc <= 1 -> 0 < conc ->
  exists k, GetLindRateCoeff v T p k0 kInf fc conc = Some k /\
    fc * (1 / (1 / (k0 * conc) + 1 / kInf)) <= k <= 1 / (1 / (k0 * conc) + 1 / kInf).
Proof.
  intros A B C D E F. assert (PI : 0 < kInf) by (eapply Rlt_le_trans; [apply (tiny_pos 60)|exact D]).
  destruct (lind_spec v T p k0 kInf fc conc A B C PI ltac:(split; [lra|]; apply Rle_trans with 1; lra) ltac:(lra)) as (f & -> & Hf).
  eexists; split; [reflexivity|]. rewrite Rmin_right, Rmax_left in Hf by lra.
  assert (X : reduced v T p k0 kInf conc = k0 * conc / kInf).
  { unfold reduced. assert (lind_conc v T p conc = conc) as ->. { destruct v; cbn [lind_conc]; [destruct (Rle_dec conc 0); [lra|reflexivity]|reflexivity|reflexivity]. }
    assert (MAX_C kInf (/ 10 ^ 60) = kInf) as ->.
    { unfold MAX_C. destruct (Rlt_dec (/ 10 ^ 60) kInf) as [_|N]; [reflexivity|]. revert D N. generalize (/ 10 ^ 60). intros. lra. }
    unfold Rdiv. ring. }
  rewrite X. clear X D. assert (P : 0 < k0 * conc) by (apply Rmult_lt_0_compat; assumption). set (a := k0 * conc) in *. clearbody a.
  replace (kInf * (f * (a / kInf) / (1 + a / kInf))) with (f * (1 / (1 / a + 1 / kInf))) by (field; lra).
  assert (H : 0 < 1 / (1 / a + 1 / kInf)).
  { apply Rdiv_lt_0_compat; [lra|]. assert (0 < 1 / a) by (apply Rdiv_lt_0_compat; lra). assert (0 < 1 / kInf) by (apply Rdiv_lt_0_compat; lra). lra. }
  set (h := 1 / (1 / a + 1 / kInf)) in *. clearbody h. nra.
Qed.

(** ** Tables in the pressure *)
Lemma sorted_increasing P (a : arrhenius) rest : StronglySorted Qlt (map fst ((P, a) :: rest)) -> increasing P rest = true.
Proof.
  revert P a. induction rest as [|[P' a'] rest IH]; intros P a H; [reflexivity|]. cbn [map fst] in H. apply StronglySorted_inv in H. destruct H as [H1 H2].
  cbn [increasing]. apply andb_true_iff. split; [|apply (IH P' a'); exact H1]. rewrite Forall_forall in H2.
  specialize (H2 P' (or_introl eq_refl)). unfold Qlt_bool. apply negb_true_iff. destruct (Qle_bool P' P) eqn:X; [|reflexivity]. apply Qle_bool_iff in X.
  exfalso. apply (Qlt_not_le _ _ H2). exact X.
Qed.
Lemma increasing_sorted P (a : arrhenius) rest : increasing P rest = true -> StronglySorted Qlt (map fst ((P, a) :: rest)).
Proof.
  revert P a. induction rest as [|[P' a'] rest IH]; intros P a H; cbn [map fst]; [repeat constructor|]. cbn [increasing] in H. apply andb_true_iff in H. destruct H as [H1 H2].
  apply Qlt_bool_lt in H1. specialize (IH P' a' H2). constructor; [exact IH|]. constructor; [exact H1|]. cbn [map fst] in IH. apply StronglySorted_inv in IH. destruct IH as [_ IH].
  eapply Forall_impl; [|exact IH]. cbn. intros x Hx. eapply Qlt_trans; eassumption.
Qed.
Lemma sorted_at (pre : list (Q * arrhenius)) P1 a1 P2 a2 post : StronglySorted Qlt (map fst (pre ++ (P1, a1) :: (P2, a2) :: post)) -> (P1 < P2)%Q.
Proof.
  induction pre as [|x pre IH]; cbn [app map fst]; intros H; apply StronglySorted_inv in H; destruct H as [H1 H2]; [|exact (IH H1)].
  rewrite Forall_forall in H2. apply H2. left; reflexivity.
Qed.
Lemma sorted_first P (a : arrhenius) rest (x : Q * arrhenius) : StronglySorted Qlt (map fst ((P, a) :: rest)) -> In x rest -> (P < fst x)%Q.
Proof. cbn [map fst]. intros H I. apply StronglySorted_inv in H. destruct H as [_ H]. rewrite Forall_forall in H. apply H, in_map, I. Qed.

Lemma MAX_floor x : / 10 ^ 60 <= x -> MAX_C x (/ 10 ^ 60) = x.
Proof. unfold MAX_C. intros [H|H]; destruct (Rlt_dec (/ 10 ^ 60) x) as [_|N]; [reflexivity|contradiction|reflexivity|exact H]. Qed.
Lemma MIN_le x : x <= DBL_MAX -> MIN_C x DBL_MAX = x.
Proof. unfold MIN_C. intros [H|H]; destruct (Rlt_dec x DBL_MAX) as [_|N]; [reflexivity|contradiction|reflexivity|symmetry; exact H]. Qed.

(** between two entries *)
Definition between (k1 k2 P1 P2 p : R) : R := exp (ln k1 + (ln k2 - ln k1) * ((ln p - ln P1) / (ln P2 - ln P1))).
Lemma between_left k1 k2 P1 P2 : 0 < k1 -> between k1 k2 P1 P2 P1 = k1.
Proof. intros H. unfold between. replace (ln P1 - ln P1) with 0 by ring. unfold Rdiv. rewrite Rmult_0_l, Rmult_0_r, Rplus_0_r. apply exp_ln, H. Qed.
Lemma between_right k1 k2 P1 P2 : 0 < k2 -> 0 < P1 < P2 -> between k1 k2 P1 P2 P2 = k2.
Proof.
  intros H P. unfold between. assert (ln P1 < ln P2) by (apply ln_increasing; lra). unfold Rdiv. rewrite Rinv_r, Rmult_1_r by lra.
  replace (ln k1 + (ln k2 - ln k1)) with (ln k2) by ring. apply exp_ln, H.
Qed.
Lemma between_le k1 k2 P1 P2 p B : 0 < k1 <= B -> 0 < k2 <= B -> 0 < P1 < P2 -> P1 <= p <= P2 -> between k1 k2 P1 P2 p <= B.
Proof.
  intros H1 H2 P Hp. unfold between. assert (L : ln P1 < ln P2) by (apply ln_increasing; lra).
  assert (mon : forall x y, 0 < x -> x <= y -> ln x <= ln y) by (intros x y X [Y| ->]; [left; apply ln_increasing; assumption|apply Rle_refl]).
  assert (T : 0 <= (ln p - ln P1) / (ln P2 - ln P1) <= 1).
  { pose proof (mon P1 p ltac:(lra) ltac:(lra)). pose proof (mon p P2 ltac:(lra) ltac:(lra)). split; [apply Rmult_le_pos; [lra|left; apply Rinv_0_lt_compat; lra]|].
    apply Rmult_le_reg_r with (ln P2 - ln P1); [lra|]. unfold Rdiv. rewrite Rmult_assoc, Rinv_l by lra. lra. }
  set (t := (ln p - ln P1) / (ln P2 - ln P1)) in *. clearbody t. rewrite <- (exp_ln B) by lra. apply exp_mono.
  pose proof (mon k1 B ltac:(lra) ltac:(lra)). pose proof (mon k2 B ltac:(lra) ltac:(lra)). nra.
Qed.

Lemma last_app {A} (l l' : list A) x d : last (l ++ x :: l') d = last (x :: l') d.
Proof.
  induction l as [|y l IH]; [reflexivity|]. cbn [app]. destruct (l ++ x :: l') as [|z r] eqn:E; [destruct l; discriminate|]. exact IH.
Qed.

Lemma plog_between T p table pre P1 a1 P2 a2 post : StronglySorted Qlt (map fst table) -> (forall x, In x table -> (0 < fst x)%Q) ->
  table = pre ++ (P1, a1) :: (P2, a2) :: post -> Q2R P1 <= p <= Q2R P2 ->
  / 10 ^ 60 <= arr T a1 <= DBL_MAX -> / 10 ^ 60 <= arr T a2 <= DBL_MAX ->
  GetPlogRateCoeff T p table = Some (between (arr T a1) (arr T a2) (Q2R P1) (Q2R P2) p).
Proof.
  intros So Po E Hp K1 K2. pose proof (tiny_pos 60) as T60.
  assert (P12 : Q2R P1 < Q2R P2) by (apply Qlt_Rlt; rewrite E in So; exact (sorted_at _ _ _ _ _ _ So)).
  assert (P10 : 0 < Q2R P1) by (apply Q2R_pos; apply (Po (P1, a1)); rewrite E; apply in_or_app; right; left; reflexivity).
  assert (k1 : 0 < arr T a1) by (eapply Rlt_le_trans; [exact T60|apply K1]). assert (k2 : 0 < arr T a2) by (eapply Rlt_le_trans; [exact T60|apply K2]).
  assert (Bd : between (arr T a1) (arr T a2) (Q2R P1) (Q2R P2) p <= DBL_MAX).
  { apply between_le; [split; [exact k1|apply K1]|split; [exact k2|apply K2]|split; [exact P10|exact P12]|exact Hp]. }
  destruct table as [|[P0 a0] rest]; [destruct pre; discriminate|]. unfold GetPlogRateCoeff.
  set (pn := last ((P0, a0) :: rest) (P0, a0)). assert (Epn : pn = last ((P2, a2) :: post) (P0, a0)).
  { subst pn. rewrite E. rewrite last_app. reflexivity. }
  clearbody pn.
  assert (Ppn : Q2R P2 <= Q2R (fst pn)).
  { rewrite Epn. apply increasing_last. apply (sorted_increasing P2 a2). rewrite E in So. clear - So. induction pre as [|x pre IH]; cbn [app map] in So.
    - apply StronglySorted_inv in So. apply So.
    - apply StronglySorted_inv in So. apply IH, So. }
  assert (Plast : forall Pn an, pn = (Pn, an) -> p = Q2R Pn -> p = Q2R P2 /\ an = a2).
  { intros Pn an En Hn. rewrite En in Ppn. cbn [fst] in Ppn. assert (p = Q2R P2) as X by lra. split; [exact X|].
    destruct post as [|x post']; [cbn [last] in Epn; congruence|]. exfalso.
    assert (In pn (x :: post')). { rewrite Epn. change (last ((P2, a2) :: x :: post') (P0, a0)) with (last (x :: post') (P0, a0)). apply last_in. discriminate. }
    assert (So2 : StronglySorted Qlt (map fst ((P2, a2) :: x :: post'))).
    { rewrite E in So. clear - So. induction pre as [|y pre IH]; cbn [app map] in So; apply StronglySorted_inv in So; [apply So|apply IH, So]. }
    pose proof (sorted_first _ _ _ _ So2 H) as Y. apply Qlt_Rlt in Y. rewrite En in Y. cbn [fst] in Y. lra. }
  destruct pn as [Pn an]. cbn [fst] in Ppn. destruct (Rle_dec p (Q2R P0)) as [L0|L0].
  - assert (pre = [] /\ p = Q2R P1 /\ a0 = a1) as (_ & -> & ->).
    { destruct pre as [|x pre]; [cbn in E; injection E as <- <- _; repeat split; lra|]. exfalso. injection E as <- E.
      assert (In (P1, a1) rest) by (rewrite E; apply in_or_app; right; left; reflexivity). pose proof (sorted_first _ _ _ _ So H) as X. apply Qlt_Rlt in X. cbn [fst] in X. lra. }
    rewrite MIN_le by apply K1. rewrite between_left by exact k1. reflexivity.
  - destruct (Rle_dec (Q2R Pn) p) as [L1|L1].
    + destruct (Plast Pn an eq_refl ltac:(lra)) as [-> ->]. rewrite MIN_le by apply K2. rewrite between_right by (assumption || lra). reflexivity.
    + pose proof (sorted_increasing _ _ _ So) as I. assert (PP : (0 < P0)%Q) by (apply (Po (P0, a0)); left; reflexivity).
      assert (G : plog_interpolate T p (Q2R P0) (arr T a0) rest = between (arr T a1) (arr T a2) (Q2R P1) (Q2R P2) p); [|rewrite G, MIN_le by exact Bd; reflexivity].
      destruct (Req_dec p (Q2R P1)) as [EP|EP].
      * (* the left end is the right end of the interval before *)
        destruct pre as [|[Px ax] pre]; [cbn in E; injection E as <- <- _; lra|]. injection E as <- <- E.
        rewrite EP at 2. rewrite between_left by exact k1.
        assert (exists pre' P' a', (P0, a0) :: rest = pre' ++ (P', a') :: (P1, a1) :: (P2, a2) :: post) as (pre' & P' & a' & E').
        { exists (removelast ((P0, a0) :: pre)), (fst (last ((P0, a0) :: pre) (P0, a0))), (snd (last ((P0, a0) :: pre) (P0, a0))).
          rewrite <- surjective_pairing. rewrite E. pose proof (@app_removelast_last _ ((P0, a0) :: pre) (P0, a0) ltac:(discriminate)) as Y.
          change ((P0, a0) :: pre ++ (P1, a1) :: (P2, a2) :: post) with (((P0, a0) :: pre) ++ (P1, a1) :: (P2, a2) :: post). rewrite Y at 1. rewrite <- app_assoc. reflexivity. }
        assert (P'1 : Q2R P' < Q2R P1) by (apply Qlt_Rlt; rewrite E' in So; exact (sorted_at _ _ _ _ _ _ So)).
        assert (P'0 : 0 < Q2R P') by (apply Q2R_pos; apply (Po (P', a')); rewrite E'; apply in_or_app; right; left; reflexivity).
        assert (LL : ln (Q2R P') < ln (Q2R P1)) by (apply ln_increasing; assumption).
        assert (val : exp (ln (MAX_C (arr T a') (/ 10 ^ 60)) + (ln (MAX_C (arr T a1) (/ 10 ^ 60)) - ln (MAX_C (arr T a') (/ 10 ^ 60))) / (ln (Q2R P1) - ln (Q2R P')) * (ln p - ln (Q2R P'))) = arr T a1).
        { rewrite EP, (MAX_floor (arr T a1)) by apply K1. rewrite <- (exp_ln (arr T a1)) at 2 by exact k1. f_equal. field. lra. }
        destruct pre' as [|[Py ay] pre'].
        -- cbn [app] in E'. injection E' as <- <- E'. rewrite E'. cbn [plog_interpolate]. destruct (Rle_dec p (Q2R P1)); [exact val|lra].
        -- injection E' as <- <- E'. rewrite <- val. apply (plog_at T p P0 (arr T a0) rest pre' P' a' P1 a1 ((P2, a2) :: post) I PP E'). lra.
      * assert (val : exp (ln (MAX_C (arr T a1) (/ 10 ^ 60)) + (ln (MAX_C (arr T a2) (/ 10 ^ 60)) - ln (MAX_C (arr T a1) (/ 10 ^ 60))) / (ln (Q2R P2) - ln (Q2R P1)) * (ln p - ln (Q2R P1))) = between (arr T a1) (arr T a2) (Q2R P1) (Q2R P2) p).
        { rewrite (MAX_floor (arr T a1)), (MAX_floor (arr T a2)) by (apply K1 || apply K2). unfold between. f_equal. unfold Rdiv. ring. }
        rewrite <- val. destruct pre as [|[Px ax] pre].
        -- cbn [app] in E. injection E as -> -> ->. cbn [plog_interpolate]. destruct (Rle_dec p (Q2R P2)); [reflexivity|lra].
        -- injection E as <- <- E. apply (plog_at T p P0 (arr T a0) rest pre P1 a1 P2 a2 post I PP E). lra.
Qed.

(** ** Names *)
Definition found (labels names : list string) : bool :=
  forallb (fun x => match species_index (snd x) names 0 with Some i => Nat.eqb i (fst x) | None => false end) (combine (seq 0 (length labels)) labels).
Lemma found_spec labels names : found labels names = true -> forall i, (i < length labels)%nat -> species_index (nth i labels ""%string) names 0 = Some i.
Proof.
  intros H i L. unfold found in H. rewrite forallb_forall in H.
  assert (I : In (i, nth i labels ""%string) (combine (seq 0 (length labels)) labels)).
  { assert (X : nth i (combine (seq 0 (length labels)) labels) (0%nat, ""%string) = (i, nth i labels ""%string)).
    { rewrite combine_nth by apply seq_length. rewrite seq_nth by exact L. reflexivity. }
    rewrite <- X. apply nth_In. rewrite combine_length, seq_length. lia. }
  specialize (H _ I). cbn [fst snd] in H. destruct (species_index (nth i labels ""%string) names 0) as [j|]; [|discriminate]. apply Nat.eqb_eq in H. subst. reflexivity.
Qed.

Fixpoint distinct (l : list string) : bool := match l with [] => true | x :: l' => negb (existsb (String.eqb x) l') && distinct l' end.
Lemma distinct_NoDup l : distinct l = true -> NoDup l.
Proof.
  induction l as [|x l IH]; cbn; intros H; [constructor|]. apply andb_true_iff in H. destruct H as [H1 H2]. constructor; [|exact (IH H2)].
  intros I. apply negb_true_iff in H1. assert (existsb (String.eqb x) l = true); [|congruence]. apply existsb_exists. exists x. split; [exact I|apply String.eqb_refl].
Qed.

(** ** Molar masses *)
Definition formula_weight (l : string) : Q :=
  (inject_Z (atoms El_C l) * 12.011 + inject_Z (atoms El_H l) * 1.008 + inject_Z (atoms El_O l) * 15.999 +
   inject_Z (atoms El_N l) * 14.007 + inject_Z (atoms El_AR l) * 39.948 + inject_Z (atoms El_HE l) * 4.0026)%Q.
Definition formula_atoms (l : string) : Z := (atoms El_C l + atoms El_H l + atoms El_O l + atoms El_N l + atoms El_AR l + atoms El_HE l)%Z.
Lemma sum_elements_6 f : sum_elements f = f El_C + f El_H + f El_O + f El_N + f El_AR + f El_HE.
Proof. unfold sum_elements, elements. cbn [fold_right]. ring. Qed.
Lemma molecular_weight_Q l : molecular_weight l = Q2R (formula_weight l).
Proof. unfold molecular_weight, formula_weight. rewrite sum_elements_6. cbn [atomic_weight]. rewrite !Q2R_plus, !Q2R_mult, !Q2R_inject. reflexivity. Qed.
Lemma number_of_atoms_Z l : number_of_atoms l = IZR (formula_atoms l).
Proof. unfold number_of_atoms, formula_atoms. rewrite sum_elements_6, !plus_IZR. reflexivity. Qed.
Definition weight_near (w : Q) (l : string) : bool := near ((4 # 1000) * inject_Z (formula_atoms l)) (w - formula_weight l).
Lemma weight_near_spec w l : weight_near w l = true -> Rabs (Q2R w - molecular_weight l) <= 0.004 * number_of_atoms l.
Proof.
  intros H. apply near_spec in H. rewrite Q2R_minus, Q2R_mult, Q2R_inject in H. rewrite molecular_weight_Q, number_of_atoms_Z.
  replace (Q2R (4 # 1000)) with 0.004 in H by (unfold Q2R; cbn; lra). exact H.
Qed.
Definition weights_near (ex : list string) (ws : list Q) (ls : list string) : bool :=
  forallb (fun x => existsb (String.eqb (snd x)) ex || weight_near (fst x) (snd x)) (combine ws ls).
Lemma weights_near_spec ex ws ls : weights_near ex ws ls = true -> length ws = length ls -> forall s, (s < length ls)%nat -> ~ In (nth s ls ""%string) ex ->
  Rabs (Q2R (nth s ws 0%Q) - molecular_weight (nth s ls ""%string)) <= 0.004 * number_of_atoms (nth s ls ""%string).
Proof.
  intros H L s Hs N. unfold weights_near in H. rewrite forallb_forall in H. specialize (H (nth s ws 0%Q, nth s ls ""%string)). cbn [fst snd] in H.
  apply weight_near_spec. assert (I : In (nth s ws 0%Q, nth s ls ""%string) (combine ws ls)).
  { rewrite <- combine_nth by exact L. apply nth_In. rewrite combine_length. lia. }
  specialize (H I). apply orb_true_iff in H. destruct H as [H|H]; [|exact H]. exfalso. apply N. apply existsb_exists in H. destruct H as (x & Ix & Hx).
  apply String.eqb_eq in Hx. rewrite Hx. exact Ix.
Qed.
Lemma burke_near : weights_near [] burke_weights burke_labels = true. Proof. vm_cast_no_check (eq_refl true). Qed.
Lemma zhao_near : weights_near ["HE"%string; "HCCOH"%string] zhao_weights zhao_labels = true. Proof. vm_cast_no_check (eq_refl true). Qed.
Lemma gri_near : weights_near [] gri_weights gri_labels = true. Proof. vm_cast_no_check (eq_refl true). Qed.
Lemma aramco74_near : weights_near ["HE"%string] aramco74_weights aramco74_labels = true. Proof. vm_cast_no_check (eq_refl true). Qed.
Lemma aramco91_near : weights_near ["HE"%string] aramco91_weights aramco91_labels = true. Proof. vm_cast_no_check (eq_refl true). Qed.

Lemma in_near t labels s : In (t, labels) mechanisms -> (s < length labels)%nat ->
  ~ In (t, nth s labels ""%string) [(zhao, "HE"%string); (zhao, "HCCOH"%string); (aramco74, "HE"%string); (aramco91, "HE"%string)] ->
  Rabs (Q2R (nth s (weights t) 0%Q) - molecular_weight (nth s labels ""%string)) <= 0.004 * number_of_atoms (nth s labels ""%string).
Proof.
  intros I L N. destruct (in_sizes t labels I) as [_ Lw]. cbn [mechanisms In] in I. cbn [In] in N. set (x := nth s labels ""%string) in *.
  assert (G : forall ex, weights_near ex (weights t) labels = true -> ~ In x ex -> Rabs (Q2R (nth s (weights t) 0%Q) - molecular_weight x) <= 0.004 * number_of_atoms x).
  { intros ex H1 H2. exact (weights_near_spec ex (weights t) labels H1 Lw s L H2). }
  clearbody x. clear Lw.
  destruct I as [I|[I|[I|[I|[I|[]]]]]]; pose proof (f_equal fst I) as E1; pose proof (f_equal snd I) as E2; cbn [fst snd] in E1, E2; subst t labels; clear I.
  - apply (G [] burke_near). intros [].
  - apply (G _ zhao_near). intros [X|[X|[]]]; apply N; rewrite <- X; [left; reflexivity|right; left; reflexivity].
  - apply (G [] gri_near). intros [].
  - apply (G _ aramco74_near). intros [X|[]]. apply N. rewrite <- X. right; right; left; reflexivity.
  - apply (G _ aramco91_near). intros [X|[]]. apply N. rewrite <- X. right; right; right; left; reflexivity.
Qed.

(** ** Names in texts *)
Lemma assign_ok m entries Y sum : (forall x, In x entries -> exists i, species_index (fst x) (names m) 0 = Some i) -> exists Y' sum', assign_entries m entries Y sum = (Y', Some sum').
Proof.
  revert Y sum. induction entries as [|[s v] entries IH]; intros Y sum H; cbn; [eauto|]. destruct (H (s, v) (or_introl eq_refl)) as [i Ei]. cbn [fst] in Ei. rewrite Ei.
  apply IH. intros x Ix. apply H. right. exact Ix.
Qed.
Lemma found_in labels ns s : found labels ns = true -> In s labels -> exists i, species_index s ns 0 = Some i.
Proof. intros H I. destruct (In_nth labels s ""%string I) as (i & L & <-). exists i. apply (found_spec labels ns H i L). Qed.
Lemma burke_found : found burke_labels burke_names = true. Proof. vm_cast_no_check (eq_refl true). Qed.
Lemma aramco91_found : found aramco91_labels aramco91_names = true. Proof. vm_cast_no_check (eq_refl true). Qed.
