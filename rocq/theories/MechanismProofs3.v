(** Rates of reactions: defined, not negative, bounded; species which are used up *)
From Coq Require Import String List ZArith NArith QArith Qreals Reals Lra Lia Bool.
From Verif Require Import MechanismModel MechanismSpec MechanismProofs MechanismProofs2.
Import ListNotations.
Local Open Scope R_scope.

Lemma ln10_pos : 0 < ln 10.
Proof. rewrite <- ln_1. apply ln_increasing; lra. Qed.

Lemma ln_pow_n x n : 0 < x -> ln (x ^ n) = INR n * ln x.
Proof.
  intros H. induction n; [cbn; rewrite ln_1; ring|]. rewrite S_INR. cbn [pow]. rewrite ln_mult, IHn; [ring|exact H|apply pow_lt; exact H].
Qed.

(** log10 3.8 < 0.75 / 1.27 *)
Lemma log38 : 1.27 * log10 3.8 < 0.75.
Proof.
  assert (A : 127 * ln 3.8 < 75 * ln 10).
  { replace 127 with (INR 127) by (rewrite INR_IZR_INZ; reflexivity). replace 75 with (INR 75) by (rewrite INR_IZR_INZ; reflexivity).
    rewrite <- !ln_pow_n by lra. apply ln_increasing; [apply pow_lt; lra|].
    replace 3.8 with (Q2R (38 # 10)) by reflexivity. replace 10 with (Q2R 10) by qr. rewrite <- !qpow_R. apply Qlt_Rlt. vm_compute. reflexivity. }
  unfold log10. pose proof ln10_pos as B. set (a := ln 3.8) in *. set (b := ln 10) in *. clearbody a b.
  assert (E : a = a / b * b) by (field; lra). set (q := a / b) in *. clearbody q. rewrite E in A.
  assert (127 * q < 75) by (apply Rmult_lt_reg_r with b; lra). lra.
Qed.

Lemma log10_le x y : 0 < x -> x <= y -> log10 x <= log10 y.
Proof.
  intros A [B| ->]; [|lra]. unfold log10, Rdiv. apply Rmult_le_compat_r; [left; apply Rinv_0_lt_compat, ln10_pos|]. left. apply ln_increasing; assumption.
Qed.

Lemma logfc_spec v fc : 0 < fc <= 3.8 -> exists lf, lind_logfc v fc = Some lf /\ 0 < 0.75 - 1.27 * lf.
Proof.
  intros [A B]. pose proof log38 as L. pose proof (log10_le fc 3.8 A B) as M.
  destruct v; cbn [lind_logfc].
  - destruct (Rlt_dec 0 fc); [|contradiction]. eexists; split; [reflexivity|]. lra.
  - eexists; split; [reflexivity|]. destruct (Rlt_dec fc (/ 10 ^ 200)); lra.
  - eexists; split; [reflexivity|]. destruct (Rlt_dec fc (/ 10 ^ 200)); lra.
Qed.

Lemma exponent_spec num N : 0 < N -> exists e, lind_exponent num (N - 0.14 * num) = Some e /\ 0 <= e <= 1.
Proof.
  intros P. unfold lind_exponent. destruct (Req_EM_T (N - 0.14 * num) 0) as [E|E].
  - destruct (Req_EM_T num 0) as [F|F]; [exfalso; rewrite F in E; lra|]. eexists; split; [reflexivity|]. lra.
  - eexists; split; [reflexivity|]. set (f := num / _). assert (0 <= f * f) by nra.
    assert (0 < / (f * f + 1)) by (apply Rinv_0_lt_compat; lra).
    assert (/ (f * f + 1) <= 1) by (rewrite <- Rinv_1; apply Rinv_le_contravar; lra). unfold Rdiv. lra.
Qed.

Lemma cpow_spec fc e : 0 < fc -> 0 <= e <= 1 -> exists f, cpow fc e = Some f /\ Rmin 1 fc <= f <= Rmax 1 fc.
Proof.
  intros P [A B]. unfold cpow. destruct (Req_EM_T e 0) as [E|E].
  - eexists; split; [reflexivity|]. split; [apply Rmin_l|apply Rmax_l].
  - destruct (Rlt_dec 0 fc); [|contradiction]. eexists; split; [reflexivity|]. unfold Rpower.
    destruct (Rle_dec 1 fc) as [C|C].
    + rewrite Rmin_left, Rmax_right by exact C. assert (0 <= ln fc) as D.
      { destruct C as [C| <-]; [|rewrite ln_1; lra]. rewrite <- ln_1. left. apply ln_increasing; lra. }
      split.
      * rewrite <- exp_0. assert (0 <= e * ln fc) as [F|F] by nra; [left; apply exp_increasing; exact F|rewrite <- F; lra].
      * rewrite <- (exp_ln fc P) at 2. assert (e * ln fc <= ln fc) as [F|F] by nra; [left; apply exp_increasing; exact F|rewrite F; lra].
    + rewrite Rmin_right, Rmax_left by lra. assert (ln fc < 0) as D by (rewrite <- ln_1; apply ln_increasing; lra).
      split.
      * rewrite <- (exp_ln fc P) at 1. assert (ln fc <= e * ln fc) as [F|F] by nra; [left; apply exp_increasing; exact F|rewrite <- F; lra].
      * apply exp_le_1. nra.
Qed.

(** The reduced pressure as the code computes it *)
Definition reduced (v : lind_version) (T p k0 kInf conc : R) : R := k0 * (lind_conc v T p conc / MAX_C kInf (/ 10 ^ 60)).

Lemma tiny_pos n : 0 < / 10 ^ n.
Proof. apply Rinv_0_lt_compat, pow_lt. lra. Qed.
Lemma max_pos a b : 0 < b -> 0 < MAX_C a b.
Proof. intros H. unfold MAX_C. destruct (Rlt_dec b a); lra. Qed.
Lemma max_ge a b : a <= MAX_C a b.
Proof. unfold MAX_C. destruct (Rlt_dec b a); lra. Qed.

Lemma conc_nonneg v T p conc : 0 < T -> 0 < p -> 0 <= conc -> 0 <= lind_conc v T p conc /\ (v = LindBurke \/ 0 < conc -> 0 < lind_conc v T p conc).
Proof.
  intros A B C. assert (0 < p / (RGAS * T)).
  { apply Rdiv_lt_0_compat; [exact B|]. apply Rmult_lt_0_compat; [unfold RGAS; lra|exact A]. }
  destruct v; cbn [lind_conc].
  - destruct (Rle_dec conc 0); split; try lra; intros; lra.
  - split; [exact C|]. intros [D|D]; [discriminate|exact D].
  - split; [exact C|]. intros [D|D]; [discriminate|exact D].
Qed.

Lemma reduced_nonneg v T p k0 kInf conc : 0 < T -> 0 < p -> 0 < k0 -> 0 <= conc ->
  0 <= reduced v T p k0 kInf conc /\ (v = LindBurke \/ 0 < conc -> 0 < reduced v T p k0 kInf conc).
Proof.
  intros A B C D. destruct (conc_nonneg v T p conc A B D) as [E F]. unfold reduced.
  pose proof (max_pos kInf _ (tiny_pos 60)) as G. set (m := MAX_C kInf (/ 10 ^ 60)) in *. clearbody m. split.
  - apply Rmult_le_pos; [lra|]. apply Rmult_le_pos; [exact E|]. left. apply Rinv_0_lt_compat. exact G.
  - intros H. apply Rmult_lt_0_compat; [exact C|]. apply Rdiv_lt_0_compat; [apply F; exact H|exact G].
Qed.

Lemma lind_spec v T p k0 kInf fc conc : 0 < T -> 0 < p -> 0 < k0 -> 0 < kInf -> 0 < fc <= 3.8 -> 0 <= conc ->
  exists f, GetLindRateCoeff v T p k0 kInf fc conc =
              Some (kInf * (f * reduced v T p k0 kInf conc / (1 + reduced v T p k0 kInf conc)))
            /\ Rmin 1 fc <= f <= Rmax 1 fc.
Proof.
  intros A B C D E F. destruct (logfc_spec v fc E) as (lf & E1 & E2).
  destruct (reduced_nonneg v T p k0 kInf conc A B C F) as [G1 G2].
  assert (exists lk, lind_logk v (reduced v T p k0 kInf conc) = Some lk) as [lk E3].
  { destruct v; cbn [lind_logk]; [|eauto|eauto]. specialize (G2 (or_introl eq_refl)). destruct (Rlt_dec 0 _); [eauto|contradiction]. }
  destruct (exponent_spec (lk + (-0.4 - 0.67 * lf)) _ E2) as (e & E4 & E5).
  destruct (cpow_spec fc e (proj1 E) E5) as (f & E6 & E7). exists f. split; [|exact E7].
  unfold GetLindRateCoeff. rewrite E1. unfold reduced in E3, G1 |- *. rewrite E3, E4, E6.
  destruct (Req_EM_T (1 + _) 0) as [Z0|Z0]; [exfalso|reflexivity].
  revert G1 Z0. generalize (k0 * (lind_conc v T p conc / MAX_C kInf (/ 10 ^ 60))). intros. lra.
Qed.

Lemma saturate x : 0 <= x -> 0 <= x / (1 + x) <= 1.
Proof.
  intros H. assert (0 < / (1 + x)) by (apply Rinv_0_lt_compat; lra). split; [apply Rmult_le_pos; lra|].
  apply Rmult_le_reg_r with (1 + x); [lra|]. unfold Rdiv. rewrite Rmult_assoc, Rinv_l by lra. lra.
Qed.

(** ** The check on a coefficient *)
Definition arr_fine (a : arrhenius) : bool := Qlt_bool 0 (pre a).
Fixpoint increasing (P : Q) (table : list (Q * arrhenius)) : bool :=
  match table with [] => true | (P', _) :: rest => Qlt_bool P P' && increasing P' rest end.
Definition coefficient_fine (limited : bool) (k : coefficient) : bool :=
  match k with
  | Simple a => arr_fine a
  | Falloff low high fc m => arr_fine low && arr_fine high && fc_fine limited fc
  | Plog [] => false
  | Plog ((P, a) :: rest) => Qlt_bool 0 P && increasing P rest && arr_fine a && forallb (fun x => arr_fine (snd x)) rest
  end.

Lemma arr_fine_pos a T : arr_fine a = true -> 0 < arr T a.
Proof. intros H. apply arr_pos. apply Qlt_bool_lt. exact H. Qed.

Definition arr_upper (T1 T2 : R) (a : arrhenius) : R :=
  Q2R (pre a) * exp (Rabs (Q2R (power a)) * (Rabs (ln T1) + Rabs (ln T2)) + Rabs (Q2R (activation a)) / (RGAS * T1)).

Lemma arr_upper_spec T1 T2 T a : arr_fine a = true -> 0 < T1 -> T1 <= T <= T2 -> arr T a <= arr_upper T1 T2 a.
Proof.
  intros H P [A B]. unfold arr, arr_upper. apply Qlt_bool_lt, Q2R_pos in H. apply Rmult_le_compat_l; [lra|].
  assert (G : 0 < RGAS) by (unfold RGAS; lra).
  assert (L : Rabs (ln T) <= Rabs (ln T1) + Rabs (ln T2)).
  { assert (ln T1 <= ln T) by (destruct A as [A| ->]; [left; apply ln_increasing; lra|lra]).
    assert (ln T <= ln T2) by (destruct B as [B| ->]; [left; apply ln_increasing; lra|lra]).
    unfold Rabs. repeat destruct (Rcase_abs _); lra. }
  set (l := ln T) in *. set (s := Rabs (ln T1) + Rabs (ln T2)) in *. set (b := Q2R (power a)). set (e := Q2R (activation a)).
  assert (b * l <= Rabs b * s).
  { eapply Rle_trans; [apply Rle_abs|]. rewrite Rabs_mult. apply Rmult_le_compat_l; [apply Rabs_pos|exact L]. }
  assert (- (e / (RGAS * T)) <= Rabs e / (RGAS * T1)).
  { assert (0 < / (RGAS * T)) by (apply Rinv_0_lt_compat; nra).
    assert (/ (RGAS * T) <= / (RGAS * T1)) by (apply Rinv_le_contravar; nra). unfold Rdiv.
    apply Rle_trans with (Rabs e * / (RGAS * T)).
    - replace (- (e * / (RGAS * T))) with (- e * / (RGAS * T)) by ring. apply Rmult_le_compat_r; [lra|]. rewrite <- Rabs_Ropp. apply Rle_abs.
    - apply Rmult_le_compat_l; [apply Rabs_pos|assumption]. }
  assert (b * l - e / (RGAS * T) <= Rabs b * s + Rabs e / (RGAS * T1)) as [Q|Q] by lra; [left; apply exp_increasing; exact Q|rewrite Q; lra].
Qed.

Lemma plog_pos T p P kl table : 0 < kl -> forallb (fun x => arr_fine (snd x)) table = true -> 0 < plog_interpolate T p P kl table.
Proof.
  revert P kl. induction table as [|[P' a] rest IH]; intros P kl H F; [exact H|]. cbn [plog_interpolate]. cbn in F. apply andb_true_iff in F.
  destruct F as [F1 F2]. destruct (Rle_dec p (Q2R P')); [apply exp_pos|]. apply IH; [apply arr_fine_pos; exact F1|exact F2].
Qed.

Lemma last_in {A} (l : list A) d : l <> [] -> In (last l d) l.
Proof. induction l as [|x [|y l] IH]; intros H; [contradiction|left; reflexivity|right; apply IH; discriminate]. Qed.

Definition coefficient_upper (T1 T2 : R) (k : coefficient) : R :=
  match k with
  | Simple a => arr_upper T1 T2 a
  | Falloff low high fc m => 4 * arr_upper T1 T2 high
  | Plog _ => DBL_MAX
  end.

Lemma DBL_MAX_pos : 0 < DBL_MAX.
Proof. unfold DBL_MAX. apply IZR_lt. vm_compute. reflexivity. Qed.

Lemma coefficient_spec limited v k T p M : coefficient_fine limited k = true -> 0 < T -> (limited = true -> T <= 4600) -> 0 < p ->
  (forall m, 0 <= at_ M m) ->
  exists kv, rate_coefficient v T p M k = Some kv /\ 0 <= kv
    /\ (match k with Falloff _ _ _ m => v = LindBurke \/ 0 < at_ M m | _ => True end -> 0 < kv)
    /\ forall T1 T2, 0 < T1 -> T1 <= T <= T2 -> kv <= coefficient_upper T1 T2 k.
Proof.
  intros H A L B N. destruct k as [a | low high fc m | table]; cbn [coefficient_fine rate_coefficient coefficient_upper] in *.
  - eexists; split; [reflexivity|]. pose proof (arr_fine_pos a T H). split; [lra|]. split; [intros; lra|]. intros. apply arr_upper_spec; assumption.
  - rewrite !andb_true_iff in H. destruct H as [[H1 H2] H3]. pose proof (fc_fine_spec limited fc T H3 A L) as F.
    pose proof (arr_fine_pos low T H1) as P1. pose proof (arr_fine_pos high T H2) as P2.
    destruct (lind_spec v T p (arr T low) (arr T high) (fcTroe T fc) (at_ M m) A B P1 P2 F (N m)) as (f & E & Ef).
    destruct (reduced_nonneg v T p (arr T low) (arr T high) (at_ M m) A B P1 (N m)) as [G1 G2].
    eexists; split; [exact E|]. pose proof (saturate _ G1) as S1.
    assert (f0 : 0 < f) by (destruct Ef as [Ef _]; unfold Rmin in Ef; destruct (Rle_dec 1 (fcTroe T fc)); lra).
    assert (f1 : f <= 4) by (destruct Ef as [_ Ef]; unfold Rmax in Ef; destruct (Rle_dec 1 (fcTroe T fc)); lra).
    set (r := reduced _ _ _ _ _ _) in *. clearbody r. replace (f * r / (1 + r)) with (f * (r / (1 + r))) by (unfold Rdiv; ring).
    split; [apply Rmult_le_pos; [lra|apply Rmult_le_pos; lra]|]. split.
    + intros Q. specialize (G2 Q). apply Rmult_lt_0_compat; [exact P2|]. apply Rmult_lt_0_compat; [exact f0|]. apply Rdiv_lt_0_compat; lra.
    + intros T1 T2 Q1 Q2. pose proof (arr_upper_spec T1 T2 T high H2 Q1 Q2). set (s := r / (1 + r)) in *. assert (f * s <= 4) by nra.
      assert (0 <= f * s) by nra. nra.
  - destruct table as [|[P a] rest]; [discriminate|]. rewrite !andb_true_iff in H. destruct H as [[[H1 H2] H3] H4]. unfold GetPlogRateCoeff.
    destruct (last ((P, a) :: rest) (P, a)) as [Pn an] eqn:E. eexists; split; [reflexivity|].
    assert (Fan : arr_fine an = true).
    { pose proof (last_in ((P, a) :: rest) (P, a) ltac:(discriminate)) as I. rewrite E in I. destruct I as [I|I]; [injection I as <- <-; exact H3|].
      rewrite forallb_forall in H4. exact (H4 _ I). }
    match goal with |- 0 <= MIN_C ?x _ /\ _ => assert (X : 0 < x) end.
    { destruct (Rle_dec p (Q2R P)); [apply arr_fine_pos; exact H3|]. destruct (Rle_dec (Q2R Pn) p); [apply arr_fine_pos; exact Fan|].
      apply plog_pos; [apply arr_fine_pos; exact H3|exact H4]. }
    match goal with |- 0 <= MIN_C ?x _ /\ _ => set (y := x) in * end. clearbody y. pose proof DBL_MAX_pos.
    unfold MIN_C. generalize dependent DBL_MAX. intros D Dp. destruct (Rlt_dec y D); repeat split; intros; lra.
Qed.

(** ** Third bodies and factors *)
Definition third_fine (t : tables) : bool := forallb (forallb (fun x => Qle_bool 0 (fst x))) (third t).

Lemma at_nonneg c i : nonnegative c -> 0 <= at_ c i.
Proof.
  intros H. unfold at_. destruct (Nat.lt_ge_cases i (length c)) as [L|L]; [|rewrite nth_overflow by exact L; lra].
  unfold nonnegative in H. rewrite Forall_forall in H. apply H, nth_In, L.
Qed.
Lemma at_box B c i : 0 <= B -> Forall (fun x => 0 <= x <= B) c -> at_ c i <= B.
Proof.
  intros P H. unfold at_. destruct (Nat.lt_ge_cases i (length c)) as [L|L]; [|rewrite nth_overflow by exact L; lra].
  rewrite Forall_forall in H. apply H, nth_In, L.
Qed.

Definition third_sum (c : list R) (l : list (Q * nat)) : R := fold_right (fun x acc => Q2R (fst x) * at_ c (snd x) + acc) 0 l.

Lemma third_sum_nonneg c l : nonnegative c -> forallb (fun x => Qle_bool 0 (fst x)) l = true -> 0 <= third_sum c l.
Proof.
  intros H F. induction l as [|[q s] l IH]; cbn; [lra|]. cbn in F. apply andb_true_iff in F. destruct F as [F1 F2].
  apply Qle_bool_iff, Q2R_nonneg in F1. specialize (IH F2). unfold third_sum in IH. pose proof (at_nonneg c s H). nra.
Qed.
Lemma third_nth t c m : at_ (third_bodies t c) m = third_sum c (nth m (third t) []).
Proof. exact (map_nth (third_sum c) (third t) [] m). Qed.
Lemma third_nonneg t c m : third_fine t = true -> nonnegative c -> 0 <= at_ (third_bodies t c) m.
Proof.
  intros F H. rewrite third_nth. apply third_sum_nonneg; [exact H|]. unfold third_fine in F. rewrite forallb_forall in F.
  destruct (nth_in_or_default m (third t) []) as [I|E]; [apply F; exact I|rewrite E; reflexivity].
Qed.
Lemma third_sum_box B c l : 0 <= B -> Forall (fun x => 0 <= x <= B) c -> forallb (fun x => Qle_bool 0 (fst x)) l = true ->
  third_sum c l <= fold_right (fun x acc => Q2R (fst x) * B + acc) 0 l.
Proof.
  intros P H F. induction l as [|[q s] l IH]; cbn; [lra|]. cbn in F. apply andb_true_iff in F. destruct F as [F1 F2].
  apply Qle_bool_iff, Q2R_nonneg in F1. specialize (IH F2). unfold third_sum in IH. pose proof (at_box B c s P H). nra.
Qed.

Lemma factors_nonneg t c l : third_fine t = true -> nonnegative c -> 0 <= factors_value c (third_bodies t c) l.
Proof.
  intros F H. induction l as [|[s|m] l IH]; cbn; [lra| |].
  - apply Rmult_le_pos; [apply at_nonneg; exact H|exact IH].
  - apply Rmult_le_pos; [apply third_nonneg; assumption|exact IH].
Qed.

Definition has_factor (s : nat) (l : list factor) : bool := existsb (fun f => match f with Conc x => Nat.eqb x s | _ => false end) l.

Lemma box_nonneg B c : Forall (fun x => 0 <= x <= B) c -> nonnegative c.
Proof. apply Forall_impl. intros. lra. Qed.

(** bounds of products of factors in a box *)
Definition factor_upper (t : tables) (B : R) (f : factor) : R :=
  match f with Conc _ => B | Third m => fold_right (fun x acc => Q2R (fst x) * B + acc) 0 (nth m (third t) []) end.
Definition factors_upper (t : tables) (B : R) (l : list factor) : R := fold_right (fun f acc => factor_upper t B f * acc) 1 l.
Lemma factor_upper_spec t B c f : 0 <= B -> third_fine t = true -> Forall (fun x => 0 <= x <= B) c ->
  0 <= factor_value c (third_bodies t c) f <= factor_upper t B f.
Proof.
  intros P F H. destruct f as [s|m]; cbn.
  - split; [apply at_nonneg, (box_nonneg B), H|apply at_box; assumption].
  - split; [apply third_nonneg; [exact F|apply (box_nonneg B), H]|]. rewrite third_nth. apply third_sum_box; [exact P|exact H|].
    unfold third_fine in F. rewrite forallb_forall in F. destruct (nth_in_or_default m (third t) []) as [I|E]; [apply F; exact I|rewrite E; reflexivity].
Qed.
Lemma factors_upper_spec t B c l : 0 <= B -> third_fine t = true -> Forall (fun x => 0 <= x <= B) c ->
  0 <= factors_value c (third_bodies t c) l <= factors_upper t B l.
Proof.
  intros P F H. induction l as [|f l IH]; cbn; [lra|]. pose proof (factor_upper_spec t B c f P F H).
  fold (factors_value c (third_bodies t c) l). fold (factors_upper t B l). split; [apply Rmult_le_pos; lra|].
  apply Rmult_le_compat; lra.
Qed.
Lemma factors_loss t B l s : 0 <= B -> third_fine t = true -> has_factor s l = true ->
  exists K, 0 <= K /\ forall c, Forall (fun x => 0 <= x <= B) c -> factors_value c (third_bodies t c) l <= K * at_ c s.
Proof.
  intros P F. induction l as [|f l IH]; intros E; [discriminate|]. cbn in E. apply orb_true_iff in E.
  assert (U0 : forall l, 0 <= factors_upper t B l).
  { intros l'. pose proof (factors_upper_spec t B [] l' P F (Forall_nil _)). lra. }
  assert (U1 : 0 <= factor_upper t B f).
  { pose proof (factor_upper_spec t B [] f P F (Forall_nil _)). lra. }
  destruct E as [E|E].
  - destruct f as [x|m]; [|discriminate]. apply Nat.eqb_eq in E. subst x. exists (factors_upper t B l). split; [apply U0|].
    intros c H. cbn. fold (factors_value c (third_bodies t c) l). pose proof (factors_upper_spec t B c l P F H).
    pose proof (at_nonneg c s (box_nonneg B c H)). rewrite Rmult_comm. apply Rmult_le_compat_r; lra.
  - destruct (IH E) as (K & K0 & K1). exists (factor_upper t B f * K). split; [apply Rmult_le_pos; assumption|]. intros c H. cbn.
    fold (factors_value c (third_bodies t c) l). pose proof (factor_upper_spec t B c f P F H). pose proof (factors_upper_spec t B c l P F H).
    specialize (K1 c H). rewrite Rmult_assoc. apply Rmult_le_compat; lra.
Qed.

(** ** All reactions *)
Definition fine (limited : bool) (t : tables) : bool :=
  third_fine t && forallb (fun x => coefficient_fine limited (fst x)) (reactions t).

Lemma rates_of_spec limited v T p c t l : third_fine t = true -> forallb (fun x => coefficient_fine limited (fst x)) l = true ->
  0 < T -> (limited = true -> T <= 4600) -> 0 < p -> nonnegative c ->
  exists ws, rates_of v T p c (third_bodies t c) l = Some ws /\
    forall r, 0 <= at_ ws r /\
      (forall k fs, nth_error l r = Some (k, fs) -> exists kv, rate_coefficient v T p (third_bodies t c) k = Some kv /\ at_ ws r = kv * factors_value c (third_bodies t c) fs).
Proof.
  intros F H A L B N. induction l as [|[k fs] l IH]; cbn.
  - exists []. split; [reflexivity|]. intros r. unfold at_. split; [destruct r; cbn; lra|]. intros ? ? X. destruct r; discriminate.
  - cbn in H. apply andb_true_iff in H. destruct H as [H1 H2].
    destruct (coefficient_spec limited v k T p (third_bodies t c) H1 A L B (fun m => third_nonneg t c m F N)) as (kv & E1 & E2 & _).
    destruct (IH H2) as (ws & E3 & E4). rewrite E1, E3. eexists; split; [reflexivity|]. intros [|r].
    + split; [cbn; apply Rmult_le_pos; [exact E2|apply factors_nonneg; assumption]|]. cbn. intros k' fs' X. injection X as <- <-. exists kv. auto.
    + exact (E4 r).
Qed.

Lemma fine_rates limited t c T p : fine limited t = true -> 0 < T -> (limited = true -> T <= 4600) -> 0 < p -> nonnegative c ->
  exists ws, reaction_rates t c T p = Some ws /\ forall r, 0 <= at_ ws r /\
      (forall k fs, nth_error (reactions t) r = Some (k, fs) ->
         exists kv, rate_coefficient (version t) T p (third_bodies t c) k = Some kv /\ at_ ws r = kv * factors_value c (third_bodies t c) fs).
Proof.
  intros H A L B N. apply andb_true_iff in H. destruct H as [H1 H2]. unfold reaction_rates. destruct (Rlt_dec 0 T); [|contradiction].
  exact (rates_of_spec limited (version t) T p c t (reactions t) H1 H2 A L B N).
Qed.

Lemma fine_defined limited t c T p : fine limited t = true -> 0 < T -> (limited = true -> T <= 4600) -> 0 < p -> nonnegative c ->
  exists cdot, ComputeProductionRates t c T p = Some cdot /\ length cdot = length (production t).
Proof.
  intros H A L B N. destruct (fine_rates limited t c T p H A L B N) as (ws & E & _). unfold ComputeProductionRates. rewrite E.
  eexists; split; [reflexivity|]. apply map_length.
Qed.

(** ** Species are only used up by reactions in which they take part *)
Fixpoint consumed_ok (rs : list (coefficient * list factor)) (s : nat) (rows : list (list (Z * N))) : bool :=
  match rows with
  | [] => true
  | l :: rest =>
      forallb (fun x => Z.leb 0 (fst x) ||
        match nth_error rs (N.to_nat (snd x)) with Some (_, fs) => has_factor s fs | None => false end) l
      && consumed_ok rs (S s) rest
  end.
Definition consumes_present (t : tables) : bool := consumed_ok (reactions t) 0 (production t).

Lemma consumed_nth rs s rows i : consumed_ok rs s rows = true -> (i < length rows)%nat ->
  forallb (fun x => Z.leb 0 (fst x) || match nth_error rs (N.to_nat (snd x)) with Some (_, fs) => has_factor (s + i) fs | None => false end) (nth i rows []) = true.
Proof.
  revert s i. induction rows as [|l rows IH]; intros s i H L; cbn in L; [lia|]. cbn in H. apply andb_true_iff in H. destruct H as [H1 H2].
  destruct i as [|i]; cbn [nth]; [rewrite Nat.add_0_r; exact H1|]. rewrite <- Nat.add_succ_comm. apply IH; [exact H2|lia].
Qed.

Theorem loss_bound limited t B T1 T2 s : fine limited t = true -> consumes_present t = true -> 0 <= B -> 0 < T1 ->
  (s < length (production t))%nat ->
  exists K, 0 <= K /\ forall c T p cdot, Forall (fun x => 0 <= x <= B) c -> T1 <= T <= T2 -> (limited = true -> T <= 4600) -> 0 < p ->
    ComputeProductionRates t c T p = Some cdot -> - (K * at_ c s) <= at_ cdot s.
Proof.
  intros H C PB P1 Ls. pose proof (consumed_nth _ 0 _ s C Ls) as Cs. cbn [Nat.add] in Cs.
  assert (G : forall l, forallb (fun x => Z.leb 0 (fst x) || match nth_error (reactions t) (N.to_nat (snd x)) with Some (_, fs) => has_factor s fs | None => false end) l = true ->
    exists K, 0 <= K /\ forall c T p ws, Forall (fun x => 0 <= x <= B) c -> T1 <= T <= T2 -> (limited = true -> T <= 4600) -> 0 < p ->
      reaction_rates t c T p = Some ws -> - (K * at_ c s) <= production_of ws l).
  { induction l as [|[z r] l IH]; intros F.
    - exists 0. split; [lra|]. intros. cbn. lra.
    - cbn in F. apply andb_true_iff in F. destruct F as [F1 F2]. destruct (IH F2) as (K & K0 & K1).
      assert (exists K', 0 <= K' /\ forall c T p ws, Forall (fun x => 0 <= x <= B) c -> T1 <= T <= T2 -> (limited = true -> T <= 4600) -> 0 < p ->
        reaction_rates t c T p = Some ws -> - (K' * at_ c s) <= IZR z * at_ ws (N.to_nat r)) as (K' & K0' & K1').
      { destruct (Z.leb_spec 0 z) as [Z0|Z0].
        - exists 0. split; [lra|]. intros c T p ws Hc HT HL Hp E.
          destruct (fine_rates limited t c T p H ltac:(lra) HL Hp (box_nonneg B c Hc)) as (ws' & E' & W). rewrite E in E'. injection E' as <-.
          destruct (W (N.to_nat r)) as [W1 _]. apply IZR_le in Z0. nra.
        - cbn [orb] in F1. destruct (nth_error (reactions t) (N.to_nat r)) as [[k fs]|] eqn:E; [|discriminate].
          pose proof H as H'. apply andb_true_iff in H'. destruct H' as [H1 H2].
          destruct (factors_loss t B fs s PB H1 F1) as (Kf & Kf0 & Kf1).
          rewrite forallb_forall in H2. pose proof (H2 _ (nth_error_In _ _ E)) as Hk. cbn [fst] in Hk.
          set (U := Rmax 0 (coefficient_upper T1 T2 k)). exists (- IZR z * (U * Kf)).
          assert (Z1 : 0 < - IZR z) by (apply IZR_lt in Z0; lra). assert (0 <= U) as U0 by apply Rmax_l.
          split; [apply Rmult_le_pos; [lra|apply Rmult_le_pos; assumption]|]. intros c T p ws Hc HT HL Hp Ew.
          destruct (fine_rates limited t c T p H ltac:(lra) HL Hp (box_nonneg B c Hc)) as (ws' & E' & W). rewrite Ew in E'. injection E' as <-.
          destruct (W (N.to_nat r)) as [_ W2]. destruct (W2 _ _ E) as (kv & Ek & Er). rewrite Er.
          destruct (coefficient_spec limited (version t) k T p (third_bodies t c) Hk ltac:(lra) HL Hp (fun m => third_nonneg t c m H1 (box_nonneg B c Hc))) as (kv' & Ek' & k0 & _ & k1).
          rewrite Ek in Ek'. injection Ek' as <-. specialize (k1 T1 T2 P1 HT).
          assert (kU : kv <= U) by (eapply Rle_trans; [exact k1|apply Rmax_r]). specialize (Kf1 c Hc).
          pose proof (factors_nonneg t c fs H1 (box_nonneg B c Hc)) as f0. set (f := factors_value _ _ _) in *.
          assert (kv * f <= U * (Kf * at_ c s)) by (apply Rmult_le_compat; lra). nra. }
      exists (K' + K). split; [lra|]. intros c T p ws Hc HT HL Hp E. specialize (K1 c T p ws Hc HT HL Hp E). specialize (K1' c T p ws Hc HT HL Hp E).
      cbn. fold (production_of ws l). lra. }
  destruct (G _ Cs) as (K & K0 & K1). exists K. split; [exact K0|]. intros c T p cdot Hc HT HL Hp E. unfold ComputeProductionRates in E.
  destruct (reaction_rates t c T p) as [ws|] eqn:W; [|discriminate]. injection E as <-.
  assert (Es : at_ (map (production_of ws) (production t)) s = production_of ws (nth s (production t) [])) by exact (map_nth (production_of ws) (production t) [] s).
  rewrite Es. exact (K1 c T p ws Hc HT HL Hp W).
Qed.
