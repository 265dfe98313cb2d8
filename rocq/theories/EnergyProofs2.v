(** Lemmas for C87: number of passes of the scalar iteration. *)
From Coq Require Import List ZArith Reals Lia Lra Bool Psatz.
From Verif Require Import EnergyModel EnergyProofs.
Import ListNotations.
Local Open Scope R_scope.

Section Scalar.
Variables (u cv : R -> R) (target Ts cmin cmax Q kappa tol : R).
Hypothesis Hc : 0 < cmin.
Hypothesis Hlip : forall x y, x <= y -> cmin * (y - x) <= u y - u x <= cmax * (y - x).
Hypothesis Hcv : forall x, cmin <= cv x <= cmax.
Hypothesis Hroot : u Ts = target.
Hypothesis HQ : 4 / 3 <= Q.
Hypothesis Hratio : cmax <= Q * cmin.
Hypothesis Hk : 3 / 4 <= kappa < 1.
Hypothesis HkQ : 1 - / Q <= kappa.
Hypothesis Htol : 0 < tol <= 100.

Notation low := (low u cv target Ts kappa).
Notation high := (high u cv target Ts kappa).
Notation at_root := (at_root u cv target Ts).
Notation step := (step target).
Notation next := (next u cv target).

Definition accurate (T : R) : Prop :=
  Rabs (T - Ts) <= Q * tol \/
  Rabs (u T - target) <= 1 / 100000 * tol * Rmax (Rabs target) (Rmax cmax (1 / 100000) * tol).

Definition denom (s : newton) : R := Rmax (Rabs target) (Rmax (Rabs (Cvnew s)) (1 / 100000) * tol).

Lemma denom_pos s : 0 < denom s.
Proof.
  unfold denom. apply Rlt_le_trans with (Rmax (Rabs (Cvnew s)) (1 / 100000) * tol); [|apply Rmax_r].
  apply Rmult_lt_0_compat; [|lra]. apply Rlt_le_trans with (1 / 100000); [lra|apply Rmax_r].
Qed.

Lemma denom_le s : tracks u cv s -> denom s <= Rmax (Rabs target) (Rmax cmax (1 / 100000) * tol).
Proof.
  intros (_ & H & _). unfold denom. rewrite H. pose proof (Hcv (Tnew s)). rewrite (Rabs_right (cv (Tnew s))) by lra.
  apply Rmax_lub; [apply Rmax_l|]. apply Rle_trans with (Rmax cmax (1 / 100000) * tol); [|apply Rmax_r].
  apply Rmult_le_compat_r; [lra|]. apply Rmax_lub; [|apply Rmax_r]. apply Rle_trans with cmax; [lra|apply Rmax_l].
Qed.

Lemma one_pass_eq s : tracks u cv s ->
  one_pass u cv target tol s =
  let T := Tnew s + step s in
  if Req_EM_T (u T) target then Return T
  else if Rlt_dec (Rabs ((target - u T) / denom s)) (1 / 100000 * tol) then Return T
  else if Rlt_dec (Rabs (step s)) tol then Return T
  else Continue (next s T).
Proof.
  intros (H1 & H2 & H3). unfold one_pass. pose proof (Hcv (Tnew s)). rewrite H3.
  destruct (Rlt_dec (Cvnew s) 0) as [N|N]; [rewrite H2 in N; lra|]. fold (step s).
  assert (forall Told dT, stay_stable cv 10 Told dT = (dT, Told + dT)) as E.
  { intros Told dT. cbn [stay_stable]. pose proof (Hcv (Told + dT)). destruct (Rlt_dec (cv (Told + dT)) 0); [lra|reflexivity]. }
  rewrite E. cbn zeta. unfold check. fold (denom s). set (T := Tnew s + step s).
  destruct (Req_EM_T (u T) target); [reflexivity|]. destruct (Rlt_dec _ (1 / 100000 * tol)); [reflexivity|].
  destruct (Rlt_dec (Rabs (step s)) tol); [reflexivity|]. f_equal.
  unfold EnergyProofs.next, new_bounds. cbn [l_state l_u l_cv l_target].
  repeat match goal with |- context [Rlt_dec ?a ?b] => destruct (Rlt_dec a b) end; try reflexivity; exfalso; lra.
Qed.

Lemma err_accurate s T : tracks u cv s -> Rabs ((target - u T) / denom s) < 1 / 100000 * tol -> accurate T.
Proof.
  intros H E. right. pose proof (denom_pos s) as D. pose proof (denom_le s H) as D2.
  unfold Rdiv in E. rewrite Rabs_mult, (Rabs_right (/ denom s)) in E by (left; apply Rinv_0_lt_compat; exact D).
  rewrite Rabs_minus_sym. apply Rle_trans with (1 / 100000 * tol * denom s).
  - apply Rmult_le_reg_r with (/ denom s); [apply Rinv_0_lt_compat; exact D|]. rewrite Rmult_assoc, Rinv_r by lra. lra.
  - apply Rmult_le_compat_l; lra.
Qed.

Lemma root_accurate T : u T = target -> accurate T.
Proof.
  intros H. left. assert (T = Ts) as ->.
  { destruct (Rtotal_order T Ts) as [L|[E|G]]; [|exact E|].
    - pose proof (u_lt u cmin cmax Hc Hlip T Ts L). lra.
    - pose proof (u_lt u cmin cmax Hc Hlip Ts T G). lra. }
  unfold Rminus. rewrite Rplus_opp_r, Rabs_R0. apply Rmult_le_pos; lra.
Qed.

(** one pass: the result is accurate, or the bounds shrink *)
Lemma pass_low s A B : low s A B -> A <= Q * 100 ->
  (exists T, one_pass u cv target tol s = Return T /\ accurate T) \/
  (tol <= A * Q /\ exists s', one_pass u cv target tol s = Continue s' /\ (low s' (kappa * A) B \/ high s' A (kappa * B))).
Proof.
  intros HL HA. pose proof (proj1 HL) as Ht. rewrite one_pass_eq by exact Ht. cbn zeta. set (T := Tnew s + step s).
  destruct (Req_EM_T (u T) target) as [E|E]; [left; exists T; split; [reflexivity|apply root_accurate; exact E]|].
  destruct (Rlt_dec _ (1 / 100000 * tol)) as [F|F]; [left; exists T; split; [reflexivity|apply (err_accurate s); assumption]|].
  destruct (Rlt_dec (Rabs (step s)) tol) as [G|G].
  - left. exists T. split; [reflexivity|]. left. unfold T. eapply accurate_low; eassumption.
  - right. split.
    + destruct (Rle_dec tol (A * Q)) as [L|L]; [exact L|]. exfalso. apply G. eapply small_low; try eassumption. lra.
    + exists (next s T). split; [reflexivity|]. edestruct (low_pass u cv target Ts cmin cmax Q kappa) as [P|[[_ P]|[_ P]]]; try eassumption; [contradiction|left; exact P|right; exact P].
Qed.

Lemma pass_high s A B : high s A B -> B <= Q * 100 ->
  (exists T, one_pass u cv target tol s = Return T /\ accurate T) \/
  (tol <= B * Q /\ exists s', one_pass u cv target tol s = Continue s' /\ (high s' A (kappa * B) \/ low s' (kappa * A) B)).
Proof.
  intros HL HB. pose proof (proj1 HL) as Ht. rewrite one_pass_eq by exact Ht. cbn zeta. set (T := Tnew s + step s).
  destruct (Req_EM_T (u T) target) as [E|E]; [left; exists T; split; [reflexivity|apply root_accurate; exact E]|].
  destruct (Rlt_dec _ (1 / 100000 * tol)) as [F|F]; [left; exists T; split; [reflexivity|apply (err_accurate s); assumption]|].
  destruct (Rlt_dec (Rabs (step s)) tol) as [G|G].
  - left. exists T. split; [reflexivity|]. left. unfold T. eapply accurate_high; eassumption.
  - right. split.
    + destruct (Rle_dec tol (B * Q)) as [L|L]; [exact L|]. exfalso. apply G. eapply small_high; try eassumption. lra.
    + exists (next s T). split; [reflexivity|]. edestruct (high_pass u cv target Ts cmin cmax Q kappa) as [P|[[_ P]|[_ P]]]; try eassumption; [contradiction|left; exact P|right; exact P].
Qed.

Lemma kappa_shrinks A : 0 <= A -> kappa * A <= A.
Proof. intros H. assert (kappa * A <= 1 * A) by (apply Rmult_le_compat_r; lra). lra. Qed.

Lemma bounds_nonneg s A B : low s A B \/ high s A B -> 0 <= A /\ 0 <= B.
Proof.
  intros [(_ & H1 & _ & _ & H2 & H3)|(_ & H1 & _ & _ & H2 & H3)].
  - split; [lra|]. destruct H3 as [[_ H3]|(_ & H3 & H4)]; [|lra]. destruct (Rle_dec 0 B); [assumption|]. exfalso. assert (kappa * B < 0) by nra. lra.
  - split; [|lra]. destruct H3 as [[_ H3]|(_ & H3 & H4)]; [|lra]. destruct (Rle_dec 0 A); [assumption|]. exfalso. assert (kappa * A < 0) by nra. lra.
Qed.

Lemma near n : forall i j A B s, low s A B \/ high s A B -> A <= Q * 100 -> B <= Q * 100 ->
  kappa ^ i * A * Q < tol -> kappa ^ j * B * Q < tol -> (i + j + 2 <= n)%nat ->
  exists T, iterate u cv n target tol s = Some T /\ accurate T.
Proof.
  induction n as [|n IH]; intros i j A B s HS HA HB Hi Hj Hn; [lia|].
  destruct (bounds_nonneg s A B HS) as [PA PB]. pose proof (kappa_shrinks A PA) as KA. pose proof (kappa_shrinks B PB) as KB.
  cbn [iterate]. destruct HS as [HS|HS].
  - destruct (pass_low s A B HS HA) as [(T & -> & HT)|(NA & s' & -> & HS')]; [exists T; split; [reflexivity|exact HT]|].
    destruct i as [|i]; [exfalso; cbn [pow] in Hi; lra|].
    destruct HS' as [HS'|HS'].
    + apply (IH i j (kappa * A) B); try lra; try lia; [left; exact HS'|]. cbn [pow] in Hi. lra.
    + destruct j as [|j].
      * destruct n as [|n]; [lia|]. cbn [iterate]. destruct (pass_high s' A (kappa * B) HS' ltac:(lra)) as [(T & -> & HT)|(NB & _)]; [exists T; split; [reflexivity|exact HT]|].
        exfalso. cbn [pow] in Hj. assert (kappa * B * Q <= B * Q) by (apply Rmult_le_compat_r; lra). lra.
      * apply (IH (S i) j A (kappa * B)); try lra; try lia; [right; exact HS'|]. cbn [pow] in Hj. lra.
  - destruct (pass_high s A B HS HB) as [(T & -> & HT)|(NB & s' & -> & HS')]; [exists T; split; [reflexivity|exact HT]|].
    destruct j as [|j]; [exfalso; cbn [pow] in Hj; lra|].
    destruct HS' as [HS'|HS'].
    + apply (IH i j A (kappa * B)); try lra; try lia; [right; exact HS'|]. cbn [pow] in Hj. lra.
    + destruct i as [|i].
      * destruct n as [|n]; [lia|]. cbn [iterate]. destruct (pass_low s' (kappa * A) B HS' ltac:(lra)) as [(T & -> & HT)|(NA & _)]; [exists T; split; [reflexivity|exact HT]|].
        exfalso. cbn [pow] in Hi. assert (kappa * A * Q <= A * Q) by (apply Rmult_le_compat_r; lra). lra.
      * apply (IH i (S j) (kappa * A) B); try lra; try lia; [left; exact HS'|]. cbn [pow] in Hi. lra.
Qed.

(** the first passes, far away from the solution *)
Lemma far_low m : forall n k A B s, low s A B -> Utop s < target -> A <= Q * 100 + 100 * INR m ->
  B <= Q * 100 -> kappa ^ k * (Q * 100) * Q < tol -> (k + k + 2 + m <= n)%nat ->
  exists T, iterate u cv n target tol s = Some T /\ accurate T.
Proof.
  induction m as [|m IH]; intros n k A B s HS Hno HA HB Hk2 Hn.
  - cbn in HA. apply (near n k k (Q * 100) B); try lra; try lia.
    + left. destruct HS as (H1 & H2 & H3 & H4 & H5 & H6). split; [exact H1|]. do 3 (split; [assumption|]). split; [lra|exact H6].
    + assert (0 <= kappa ^ k) by (apply pow_le; lra). apply Rle_lt_trans with (kappa ^ k * (Q * 100) * Q); [|exact Hk2].
      apply Rmult_le_compat_r; [lra|]. apply Rmult_le_compat_l; lra.
  - destruct (Rle_dec (Ts - Tnew s) (Q * 100 + 100 * INR m)) as [L|L].
    + apply (IH n k (Q * 100 + 100 * INR m) B); try assumption; try lra; try lia.
      destruct HS as (H1 & H2 & H3 & H4 & H5 & H6). split; [exact H1|]. do 3 (split; [assumption|]). split; [lra|exact H6].
    + destruct n as [|n]; [lia|]. pose proof (pos_INR m).
      edestruct (low_far u cv target Ts cmin cmax Q kappa) as (F1 & F2 & F3 & F4); try eassumption; [lra|].
      cbn [iterate]. rewrite one_pass_eq by exact (proj1 HS). cbn zeta.
      destruct (Req_EM_T _ target) as [E|E]; [eexists; split; [reflexivity|apply root_accurate; exact E]|].
      destruct (Rlt_dec _ (1 / 100000 * tol)) as [F|F]; [eexists; split; [reflexivity|apply (err_accurate s); [exact (proj1 HS)|exact F]]|].
      destruct (Rlt_dec (Rabs (step s)) tol) as [G|G].
      { eexists. split; [reflexivity|]. left. eapply accurate_low; eassumption. }
      rewrite S_INR in HA. eapply (IH n k); try eassumption; try lia. destruct HS as (_ & _ & _ & _ & H5 & _). lra.
Qed.

Lemma far_high m : forall n k A B s, high s A B -> target < Ubot s -> B <= Q * 100 + 100 * INR m ->
  A <= Q * 100 -> kappa ^ k * (Q * 100) * Q < tol -> (k + k + 2 + m <= n)%nat ->
  exists T, iterate u cv n target tol s = Some T /\ accurate T.
Proof.
  induction m as [|m IH]; intros n k A B s HS Hno HB HA Hk2 Hn.
  - cbn in HB. apply (near n k k A (Q * 100)); try lra; try lia.
    + right. destruct HS as (H1 & H2 & H3 & H4 & H5 & H6). split; [exact H1|]. do 3 (split; [assumption|]). split; [lra|exact H6].
    + assert (0 <= kappa ^ k) by (apply pow_le; lra). apply Rle_lt_trans with (kappa ^ k * (Q * 100) * Q); [|exact Hk2].
      apply Rmult_le_compat_r; [lra|]. apply Rmult_le_compat_l; lra.
  - destruct (Rle_dec (Tnew s - Ts) (Q * 100 + 100 * INR m)) as [L|L].
    + apply (IH n k A (Q * 100 + 100 * INR m)); try assumption; try lra; try lia.
      destruct HS as (H1 & H2 & H3 & H4 & H5 & H6). split; [exact H1|]. do 3 (split; [assumption|]). split; [lra|exact H6].
    + destruct n as [|n]; [lia|]. pose proof (pos_INR m).
      edestruct (high_far u cv target Ts cmin cmax Q kappa) as (F1 & F2 & F3 & F4); try eassumption; [lra|].
      cbn [iterate]. rewrite one_pass_eq by exact (proj1 HS). cbn zeta.
      destruct (Req_EM_T _ target) as [E|E]; [eexists; split; [reflexivity|apply root_accurate; exact E]|].
      destruct (Rlt_dec _ (1 / 100000 * tol)) as [F|F]; [eexists; split; [reflexivity|apply (err_accurate s); [exact (proj1 HS)|exact F]]|].
      destruct (Rlt_dec (Rabs (step s)) tol) as [G|G].
      { eexists. split; [reflexivity|]. left. eapply accurate_high; eassumption. }
      rewrite S_INR in HB. eapply (IH n k); try eassumption; try lia. destruct HS as (_ & _ & _ & _ & H5 & _). lra.
Qed.

(** from the start *)
Lemma from_start n k m T0 : Rabs (Ts - T0) <= Q * 100 + 100 * INR m -> 100 <= kappa * (Q * 100) ->
  kappa ^ k * (Q * 100) * Q < tol -> (k + k + 2 + m <= n)%nat ->
  exists T, iterate u cv n target tol (newton_start u cv T0) = Some T /\ accurate T.
Proof.
  intros HD HB Hk2 Hn. destruct (Rtotal_order T0 Ts) as [L|[E|G]].
  - rewrite Rabs_right in HD by lra.
    apply (far_low m n k (Q * 100 + 100 * INR m) (Q * 100)); try lra; try lia.
    + split; [repeat split|]. cbn. split; [exact L|]. do 2 (split; [reflexivity|]). split; [exact HD|].
      left. split; [|exact HB]. rewrite <- Hroot. eapply u_lt; eassumption.
    + cbn. rewrite <- Hroot. eapply u_lt; eassumption.
  - subst T0. destruct n as [|n]; [lia|]. cbn [iterate]. rewrite one_pass_eq by (repeat split). cbn zeta.
    assert (at_root (newton_start u cv Ts)) as RR.
    { split; [repeat split|]. cbn. split; [reflexivity|]. intros X. rewrite Hroot in X. lra. }
    assert (step (newton_start u cv Ts) = 0) as S0 by (eapply root_step; eassumption). rewrite S0.
    cbn [newton_start Tnew]. rewrite Rplus_0_r. destruct (Req_EM_T (u Ts) target) as [_|N]; [|contradiction].
    exists Ts. split; [reflexivity|apply root_accurate; exact Hroot].
  - rewrite Rabs_left in HD by lra.
    apply (far_high m n k (Q * 100) (Q * 100 + 100 * INR m)); try lra; try lia.
    + split; [repeat split|]. cbn. split; [exact G|]. do 2 (split; [reflexivity|]). split; [lra|].
      left. split; [|exact HB]. rewrite <- Hroot. eapply u_lt; eassumption.
    + cbn. rewrite <- Hroot. eapply u_lt; eassumption.
Qed.
End Scalar.
