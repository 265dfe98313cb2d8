(** Rates which are not numbers, mass which gets lost, interpolation of pressures, solutions *)
From Coq Require Import String List ZArith NArith QArith Qreals Reals Lra Lia Bool.
From Verif Require Import MechanismModel MechanismSpec MechanismProofs MechanismProofs2 MechanismProofs3.
Import ListNotations.
Local Open Scope R_scope.

(** ** A negative broadening factor *)
Lemma exp_mono x y : x <= y -> exp x <= exp y.
Proof. intros [H| ->]; [left; apply exp_increasing; exact H|apply Rle_refl]. Qed.

Lemma special_d_hot T : 5000 <= T -> fcTroe T special_d < 0.
Proof.
  intros H. unfold special_d. rewrite fc3.
  assert (A : 0 < Q2R (1766536953836077 # 1125899906842624) < 1.6) by qr.
  assert (V : Q2R (-640637046993453 # 1125899906842624) = - Q2R (640637046993453 # 1125899906842624)) by qr. rewrite V.
  assert (C : Q2R (1 # 1) = 1) by qr. assert (D : Q2R (299 # 1) = 299) by qr. assert (E : Q2R (-9147 # 1) = - (9147)) by qr.
  rewrite C, D, E. set (u := Q2R (1766536953836077 # 1125899906842624)) in *. clearbody u.
  assert (G : 152 < Q2R (5362098306337997 # 35184372088832)) by qr. set (g := Q2R (5362098306337997 # 35184372088832)) in *. clearbody g.
  replace (- T / - (9147)) with (T / 9147) by field.
  assert (E1 : exp (- T / 299) <= (1 / 2) ^ 16).
  { apply Rle_trans with (exp (- (16))); [apply exp_mono; lra|]. rewrite exp_Ropp, (exp_pow_n 16 16) by lia.
    replace (16 / INR 16) with 1 by (rewrite INR_IZR_INZ; cbn; field). rewrite Rinv_pow by (pose proof (exp_pos 1); lra). apply pow_incr. pose proof (exp_ineq1_le 1).
    split; [left; apply Rinv_0_lt_compat; lra|]. unfold Rdiv. rewrite Rmult_1_l. apply Rinv_le_contravar; lra. }
  assert (I64 : INR 64 = 64) by (rewrite INR_IZR_INZ; reflexivity).
  assert (low : forall b, (0 < b)%Q -> Q2R b <= T -> Q2R (low64 (1 + b / (9147 * 64))) <= exp (T / 9147)).
  { intros b Pb Hb. assert (E9 : Q2R (1 + b / (9147 * 64)) = 1 + Q2R b / 9147 / 64).
    { unfold Qdiv. rewrite Q2R_plus, Q2R_mult, RMicromega.Q2R_1, Q2R_inv by (cbn; unfold Qeq; cbn; lia). rewrite Q2R_mult, Q2R_64.
      replace (Q2R 9147) with 9147 by qr. field. }
    apply Q2R_pos in Pb. assert (X0 : 0 <= 1 + Q2R b / 9147 / 64) by lra. apply Rle_trans with ((1 + Q2R b / 9147 / 64) ^ 64); [apply (low64_spec _ _ X0 E9)|]. pose proof (exp_lower (Q2R b / 9147) 64 ltac:(lia)) as X.
    rewrite I64 in X. specialize (X X0). eapply Rle_trans; [exact X|]. clear X. apply exp_mono. lra. }
  pose proof (exp_pos (- T / 299)) as E0. pose proof (exp_pos (T / 9147)) as E3.
  assert (V0 : 0.56 < Q2R (640637046993453 # 1125899906842624)) by qr.
  assert (S2 : u * exp (- T / 299) <= 1.6 * (1 / 2) ^ 16) by (apply Rmult_le_compat; [lra|lra|lra|exact E1]).
  destruct (Rle_dec T 5200) as [L|L].
  - assert (E2 : exp (- g / T) <= 0.9716).
    { apply Rle_trans with (exp (- (152 / 5200))).
      - apply exp_mono. assert (152 / 5200 <= g / T).
        { unfold Rdiv. apply Rmult_le_compat; [lra|left; apply Rinv_0_lt_compat; lra|lra|apply Rinv_le_contravar; lra]. }
        unfold Rdiv in *. lra.
      - rewrite exp_Ropp. pose proof (exp_ineq1_le (152 / 5200)). apply Rle_trans with (/ (1 + 152 / 5200)); [apply Rinv_le_contravar; lra|].
        lra. }
    assert (X : 0.98 < Q2R (640637046993453 # 1125899906842624) * exp (T / 9147)).
    { pose proof (low 5000%Q eq_refl ltac:(qr)) as X. apply Rlt_le_trans with (Q2R ((640637046993453 # 1125899906842624) * low64 (1 + 5000 / (9147 * 64)))).
      - apply (Qlt_Rlt (98 # 100)). vm_compute. reflexivity.
      - rewrite Q2R_mult. apply Rmult_le_compat_l; [lra|exact X]. }
    set (v := Q2R (640637046993453 # 1125899906842624)) in *. revert S2 E2 X. generalize (u * exp (- T / 299)) (exp (- g / T)).
    replace (- v * exp (T / 9147)) with (- (v * exp (T / 9147))) by ring. generalize (v * exp (T / 9147)). intros. lra.
  - assert (E2 : exp (- g / T) <= 1) by (apply exp_le_1, div_nonpos; lra).
    assert (X : 1.001 < Q2R (640637046993453 # 1125899906842624) * exp (T / 9147)).
    { pose proof (low 5200%Q eq_refl ltac:(qr)) as X. apply Rlt_le_trans with (Q2R ((640637046993453 # 1125899906842624) * low64 (1 + 5200 / (9147 * 64)))).
      - apply (Qlt_Rlt (1001 # 1000)). vm_compute. reflexivity.
      - rewrite Q2R_mult. apply Rmult_le_compat_l; [lra|exact X]. }
    set (v := Q2R (640637046993453 # 1125899906842624)) in *. revert S2 E2 X. generalize (u * exp (- T / 299)) (exp (- g / T)).
    replace (- v * exp (T / 9147)) with (- (v * exp (T / 9147))) by ring. generalize (v * exp (T / 9147)). intros. lra.
Qed.

Lemma log10_pow n : log10 (10 ^ n) = INR n.
Proof. unfold log10. rewrite ln_pow_n by lra. pose proof ln10_pos. field. lra. Qed.
Lemma log10_inv_pow n : log10 (/ 10 ^ n) = - INR n.
Proof. unfold log10. rewrite ln_Rinv by (apply pow_lt; lra). rewrite ln_pow_n by lra. pose proof ln10_pos. field. lra. Qed.

Lemma lind_negative T p k0 kInf fc conc : fc < 0 -> k0 * (conc / MAX_C kInf (/ 10 ^ 60)) <= 10 ^ 300 ->
  GetLindRateCoeff LindFloor T p k0 kInf fc conc = None.
Proof.
  intros F K. unfold GetLindRateCoeff, lind_conc, lind_logfc. destruct (Rlt_dec fc (/ 10 ^ 200)) as [_|N].
  2: { exfalso. apply N. pose proof (tiny_pos 200) as X. revert X. generalize (/ 10 ^ 200). intros. lra. }
  unfold lind_logk. set (q := k0 * (conc / MAX_C kInf (/ 10 ^ 60))) in *. clearbody q.
  assert (L1 : -60 <= log10 (MAX_C q (/ 10 ^ 60))).
  { replace (-60) with (- INR 60) by (rewrite INR_IZR_INZ; cbn; lra). rewrite <- log10_inv_pow. apply log10_le; [apply tiny_pos|].
    unfold MAX_C. destruct (Rlt_dec (/ 10 ^ 60) q) as [X|X]; [left; exact X|apply Rle_refl]. }
  assert (L2 : log10 (MAX_C q (/ 10 ^ 60)) <= 300).
  { replace 300 with (INR 300) by (rewrite INR_IZR_INZ; cbn; lra). rewrite <- log10_pow. apply log10_le; [apply max_pos, tiny_pos|].
    unfold MAX_C. destruct (Rlt_dec (/ 10 ^ 60) q) as [X|X]; [exact K|]. apply Rle_trans with 1.
    - rewrite <- Rinv_1. apply Rinv_le_contravar; [lra|]. apply pow_R1_Rle. lra.
    - apply pow_R1_Rle. lra. }
  set (lk := log10 (MAX_C q (/ 10 ^ 60))) in *. clearbody lk. clear K.
  unfold lind_exponent. set (num := lk + (-0.4 - 0.67 * -200)). assert (N1 : 73 <= num <= 434) by (unfold num; lra). clearbody num.
  set (den := 0.75 - 1.27 * -200 - 0.14 * num). assert (D1 : 100 <= den) by (unfold den; lra). clearbody den.
  destruct (Req_EM_T den 0); [lra|]. set (f := num / den). assert (0 < f) by (apply Rdiv_lt_0_compat; lra). clearbody f.
  assert (0 < f * f) by nra. assert (P : 0 < 1 / (f * f + 1)) by (apply Rdiv_lt_0_compat; lra).
  assert (Q : 1 / (f * f + 1) < 1).
  { apply Rmult_lt_reg_r with (f * f + 1); [lra|]. unfold Rdiv. rewrite Rmult_assoc, Rinv_l by lra. lra. }
  set (e := 1 / (f * f + 1)) in *. clearbody e. unfold cpow. destruct (Req_EM_T e 0); [lra|]. destruct (Rlt_dec 0 fc); [lra|].
  destruct (Req_EM_T fc 0); [lra|]. destruct (Req_EM_T e 1); [lra|]. reflexivity.
Qed.

(** A reaction with this factor among the reactions *)
Fixpoint third_total (l : list (Q * nat)) : Q := match l with [] => 0%Q | x :: l' => (fst x + third_total l')%Q end.
Definition hot_reaction (t : tables) (k : coefficient) : bool :=
  match k with
  | Falloff low high fc m => terms_same fc special_d && Qle_bool (power low) 0 && Qle_bool 0 (activation low) && arr_fine low &&
      Qle_bool (pre low * third_total (nth m (third t) []) * 1000000) (inject_Z (10 ^ 100))
  | _ => false
  end.
Definition gets_hot (t : tables) : bool :=
  third_fine t && existsb (fun x => hot_reaction t (fst x)) (reactions t) && match version t with LindFloor => true | _ => false end.

Lemma third_total_bound B l : fold_right (fun x acc => Q2R (fst x) * B + acc) 0 l = Q2R (third_total l) * B.
Proof. induction l as [|x l IH]; cbn; [rewrite RMicromega.Q2R_0; ring|]. rewrite IH, Q2R_plus. ring. Qed.

Lemma rates_none v T p c M l x : In x l -> rate_coefficient v T p M (fst x) = None -> rates_of v T p c M l = None.
Proof.
  intros H E. induction l as [|[k fs] l IH]; [destruct H|]. cbn. destruct H as [<-|H]; [cbn in E; rewrite E; reflexivity|].
  rewrite (IH H). destruct (rate_coefficient v T p M k); reflexivity.
Qed.

Lemma arr_le_pre T a : arr_fine a = true -> Qle_bool (power a) 0 = true -> Qle_bool 0 (activation a) = true -> 1 <= T -> arr T a <= Q2R (pre a).
Proof.
  intros A B C D. apply Qlt_bool_lt, Q2R_pos in A. apply Qle_bool_iff, Qle_Rle in B. rewrite RMicromega.Q2R_0 in B. apply Qle_bool_iff, Q2R_nonneg in C.
  unfold arr. apply scale_le; [exact A|]. apply exp_le_1. assert (0 <= ln T) by (destruct D as [D| <-]; [rewrite <- ln_1; left; apply ln_increasing; lra|rewrite ln_1; lra]).
  assert (0 < RGAS * T) by (unfold RGAS; nra). assert (0 <= Q2R (activation a) / (RGAS * T)) by (apply Rmult_le_pos; [exact C|left; apply Rinv_0_lt_compat; assumption]). nra.
Qed.

Theorem hot_none t c T p : gets_hot t = true -> Forall (fun x => 0 <= x <= 1000000) c -> 5000 <= T -> ComputeProductionRates t c T p = None.
Proof.
  intros H Hc HT. unfold gets_hot in H. rewrite !andb_true_iff in H. destruct H as [[H1 H2] H3]. apply existsb_exists in H2. destruct H2 as (x & I & Hx).
  unfold ComputeProductionRates, reaction_rates. destruct (Rlt_dec 0 T); [|reflexivity].
  rewrite (rates_none _ T p c _ _ x I); [reflexivity|]. destruct (version t); try discriminate. clear H3. destruct x as [k fs]. cbn [fst] in *.
  destruct k as [a|low high fc m|table]; try discriminate. cbn [hot_reaction] in Hx. rewrite !andb_true_iff in Hx.
  destruct Hx as [[[[X1 X2] X3] X4] X5]. apply terms_same_eq in X1. subst fc. cbn [rate_coefficient]. apply lind_negative; [apply special_d_hot; exact HT|].
  pose proof (arr_le_pre T low X4 X2 X3 ltac:(lra)) as A. pose proof (arr_fine_pos low T X4) as A0.
  pose proof (factor_upper_spec t 1000000 c (Third m) ltac:(lra) H1 Hc) as B. cbn [factor_value factor_upper] in B. rewrite third_total_bound in B.
  apply Qle_bool_iff, Qle_Rle in X5. rewrite !Q2R_mult, Q2R_inject in X5.
  replace (Q2R 1000000) with 1000000 in X5 by qr.
  set (M := at_ (third_bodies t c) m) in *. set (S3 := Q2R (third_total (nth m (third t) []))) in *.
  assert (C : 0 <= M / MAX_C (arr T high) (/ 10 ^ 60) <= S3 * 1000000 * 10 ^ 60).
  { assert (U : 0 < / MAX_C (arr T high) (/ 10 ^ 60) <= 10 ^ 60).
    { split; [apply Rinv_0_lt_compat, max_pos, tiny_pos|]. apply Rle_trans with (/ / 10 ^ 60); [|rewrite Rinv_inv; apply Rle_refl]. apply Rinv_le_contravar; [apply tiny_pos|].
      unfold MAX_C. destruct (Rlt_dec (/ 10 ^ 60) (arr T high)) as [X|X]; [left; exact X|apply Rle_refl]. }
    unfold Rdiv. split; [apply Rmult_le_pos; [apply B|left; apply U]|]. apply Rmult_le_compat; [apply B|left; apply U|apply B|apply U]. }
  set (W := M / MAX_C (arr T high) (/ 10 ^ 60)) in *. clearbody W M S3.
  apply Rle_trans with (Q2R (pre low) * (S3 * 1000000 * 10 ^ 60)).
  { apply Rmult_le_compat; [lra|apply C|exact A|apply C]. }
  assert (P60 : 0 < 10 ^ 60) by (apply pow_lt; lra).
  apply Rle_trans with (IZR (10 ^ 100) * 10 ^ 60).
  - replace (Q2R (pre low) * (S3 * 1000000 * 10 ^ 60)) with (Q2R (pre low) * S3 * 1000000 * 10 ^ 60) by ring. apply Rmult_le_compat_r; [left; exact P60|exact X5].
  - assert (E : IZR (10 ^ 100) = 10 ^ 100) by (rewrite (pow_IZR 10 100); reflexivity). rewrite E, <- pow_add. apply Rle_pow; [lra|lia].
Qed.

(** ** Mass which gets lost *)
Definition supported (supp : list nat) (fs : list factor) : bool :=
  forallb (fun f => match f with Conc s => existsb (Nat.eqb s) supp | Third _ => true end) fs.
(** among the reactions which only need species of supp the combination with a is nowhere positive *)
Fixpoint scan (supp : list nat) (nt : trie) (p : positive) (l : list (coefficient * list factor)) : bool :=
  match l with [] => true | (_, fs) :: l' => (Z.leb (get p nt) 0 || negb (supported supp fs)) && scan supp nt (Pos.succ p) l' end.
Definition loses (t : tables) (a : list Q) (supp : list nat) : bool :=
  in_range (N.of_nat (length (reactions t))) (production t) && forallb scales a && scan supp (nets (map scale a) (production t) Leaf) 1 (reactions t).
Lemma scan_spec supp nt l i r k fs : scan supp nt (N.succ_pos (N.of_nat i)) l = true -> nth_error l r = Some (k, fs) ->
  (get (N.succ_pos (N.of_nat (i + r))) nt <= 0)%Z \/ supported supp fs = false.
Proof.
  revert i r. induction l as [|[k' fs'] l IH]; intros i r H E; [destruct r; discriminate|]. cbn in H. apply andb_true_iff in H. destruct H as [H1 H2]. destruct r as [|r].
  - cbn in E. injection E as -> ->. rewrite Nat.add_0_r. apply orb_true_iff in H1. destruct H1 as [H1|H1]; [left; apply Z.leb_le; exact H1|right; apply negb_true_iff; exact H1].
  - rewrite <- Nat.add_succ_comm. apply (IH (S i) r); [|exact E]. rewrite Nat2N.inj_succ. destruct (N.of_nat i); exact H2.
Qed.
Lemma loses_comb t a supp : loses t a supp = true -> in_range (N.of_nat (length (reactions t))) (production t) = true /\
  forall r k fs, nth_error (reactions t) r = Some (k, fs) -> Q2R (combined (N.of_nat r) a (production t)) <= 0 \/ supported supp fs = false.
Proof.
  unfold loses. rewrite !andb_true_iff. intros [[H1 H2] H3]. split; [exact H1|]. intros r k fs E.
  destruct (scan_spec supp _ (reactions t) 0 r k fs H3 E) as [L|L]; [left|right; exact L]. cbn [Nat.add] in L.
  pose proof (nets_spec a (production t) Leaf (N.of_nat r) H2) as X. rewrite get_leaf, Rplus_0_l in X. apply IZR_le in L. rewrite X in L.
  assert (B : 0 < IZR unit60) by (apply IZR_lt; reflexivity). nra.
Qed.

Lemma unsupported_zero c M supp fs : (forall s, ~ In s supp -> at_ c s = 0) -> supported supp fs = false -> factors_value c M fs = 0.
Proof.
  intros H. induction fs as [|f fs IH]; cbn; intros E; [discriminate|]. apply andb_false_iff in E. destruct E as [E|E].
  - destruct f as [s|m]; [|discriminate]. cbn. rewrite H; [ring|]. intros I. assert (existsb (Nat.eqb s) supp = true); [|congruence].
    apply existsb_exists. exists s. split; [exact I|apply Nat.eqb_refl].
  - fold (factors_value c M fs). rewrite (IH E). ring.
Qed.

Lemma sum_to_nonpos n f : (forall k, (k < n)%nat -> f k <= 0) -> sum_to n f <= 0.
Proof. induction n; cbn; intros H; [lra|]. pose proof (H n ltac:(lia)). assert (sum_to n f <= 0) by (apply IHn; intros; apply H; lia). lra. Qed.
Lemma sum_to_neg n f r : (forall k, (k < n)%nat -> f k <= 0) -> (r < n)%nat -> f r < 0 -> sum_to n f < 0.
Proof.
  induction n; cbn; intros H L R; [lia|]. destruct (Nat.eq_dec r n) as [-> | E].
  - assert (sum_to n f <= 0) by (apply sum_to_nonpos; intros; apply H; lia). lra.
  - pose proof (H n ltac:(lia)). assert (sum_to n f < 0) by (apply IHn; [intros; apply H; lia|lia|exact R]). lra.
Qed.

Theorem loses_spec limited t a supp c T p r k fs : fine limited t = true -> loses t a supp = true ->
  0 < T -> (limited = true -> T <= 4600) -> 0 < p -> nonnegative c -> (forall s, ~ In s supp -> at_ c s = 0) ->
  nth_error (reactions t) r = Some (Simple k, fs) -> Z.ltb (get (N.succ_pos (N.of_nat r)) (nets (map scale a) (production t) Leaf)) 0 = true ->
  0 < factors_value c (third_bodies t c) fs ->
  exists cdot, ComputeProductionRates t c T p = Some cdot /\ dot (map Q2R a) cdot < 0.
Proof.
  intros F L A B C D E Er Hr Pf. unfold ComputeProductionRates. destruct (fine_rates limited t c T p F A B C D) as (ws & Ew & W). rewrite Ew.
  eexists; split; [reflexivity|]. assert (Hs : forallb scales a = true) by (unfold loses in L; rewrite !andb_true_iff in L; apply L).
  apply loses_comb in L. destruct L as [L1 L2]. rewrite (dot_production _ a ws _ L1), Nat2N.id.
  assert (Lr : (r < length (reactions t))%nat) by (apply nth_error_Some; rewrite Er; discriminate).
  apply (sum_to_neg _ _ r).
  - intros j Hj. destruct (W j) as [W1 W2]. destruct (nth_error (reactions t) j) as [[k' fs']|] eqn:Ej; [|exfalso; apply nth_error_None in Ej; lia].
    destruct (L2 j k' fs' Ej) as [X|X]; [nra|]. destruct (W2 _ _ eq_refl) as (kv & _ & Ek). rewrite Ek, (unsupported_zero c _ supp fs' E X). lra.
  - exact Lr.
  - destruct (W r) as [_ W2]. destruct (W2 _ _ Er) as (kv & Ek & Ev). rewrite Ev. cbn in Ek. injection Ek as <-.
    apply Z.ltb_lt, IZR_lt in Hr. rewrite (nets_spec a (production t) Leaf (N.of_nat r) Hs), get_leaf, Rplus_0_l in Hr.
    assert (B60 : 0 < IZR unit60) by (apply IZR_lt; reflexivity).
    assert (0 < arr T k).
    { apply andb_true_iff in F. destruct F as [_ F]. rewrite forallb_forall in F. apply arr_fine_pos. exact (F _ (nth_error_In _ _ Er)). }
    assert (0 < arr T k * factors_value c (third_bodies t c) fs) by (apply Rmult_lt_0_compat; assumption). nra.
Qed.

(** ** Interpolation in the pressure *)
Lemma plog_at T p P kl table pre P1 a1 P2 a2 post : increasing P table = true -> (0 < P)%Q ->
  table = pre ++ (P1, a1) :: (P2, a2) :: post -> Q2R P1 < p <= Q2R P2 ->
  plog_interpolate T p (Q2R P) kl table =
  exp (ln (MAX_C (arr T a1) (/ 10 ^ 60)) + (ln (MAX_C (arr T a2) (/ 10 ^ 60)) - ln (MAX_C (arr T a1) (/ 10 ^ 60))) / (ln (Q2R P2) - ln (Q2R P1)) * (ln p - ln (Q2R P1))).
Proof.
  revert P kl table. induction pre as [|[P0 a0] pre IH]; intros P kl table I PP E [H1 H2]; subst table.
  - cbn [app] in *. cbn [plog_interpolate]. destruct (Rle_dec p (Q2R P1)); [lra|]. destruct (Rle_dec p (Q2R P2)); [reflexivity|lra].
  - cbn [app increasing] in I. apply andb_true_iff in I. destruct I as [I1 I2]. apply Qlt_bool_lt in I1. cbn [app plog_interpolate].
    assert (P01 : Q2R P0 < Q2R P1).
    { clear - I2. revert P0 I2. induction pre as [|[P3 a3] pre IH]; intros P0 I2; cbn [app increasing] in I2; apply andb_true_iff in I2; destruct I2 as [J1 J2];
        apply Qlt_bool_lt, Qlt_Rlt in J1; [exact J1|]. eapply Rlt_trans; [exact J1|]. apply IH; exact J2. }
    destruct (Rle_dec p (Q2R P0)); [lra|]. apply (IH P0 (arr T a0) (pre ++ (P1, a1) :: (P2, a2) :: post)); [exact I2|eapply Qlt_trans; eassumption|reflexivity|split; assumption].
Qed.

Lemma increasing_last P a rest d : increasing P rest = true -> Q2R P <= Q2R (fst (last ((P, a) :: rest) d)).
Proof.
  revert P a. induction rest as [|[P' a'] rest IH]; intros P a H; [cbn; lra|]. cbn [increasing] in H. apply andb_true_iff in H. destruct H as [H1 H2].
  apply Qlt_bool_lt, Qlt_Rlt in H1. specialize (IH P' a' H2). change (last ((P, a) :: (P', a') :: rest) d) with (last ((P', a') :: rest) d). lra.
Qed.
