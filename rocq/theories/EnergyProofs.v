(** Lemmas for C87: the temperature iteration converges. *)
From Coq Require Import List ZArith Reals Lia Lra Bool Psatz.
From Verif Require Import EnergyModel.
Import ListNotations.
Local Open Scope R_scope.

Section Lane.
Variables (u cv : R -> R) (target Ts cmin cmax Q kappa : R).
Hypothesis Hc : 0 < cmin.
Hypothesis Hlip : forall x y, x <= y -> cmin * (y - x) <= u y - u x <= cmax * (y - x).
Hypothesis Hcv : forall x, cmin <= cv x <= cmax.
Hypothesis Hroot : u Ts = target.
Hypothesis HQ : 4 / 3 <= Q.
Hypothesis Hratio : cmax <= Q * cmin.
Hypothesis Hk : 3 / 4 <= kappa < 1.
Hypothesis HkQ : 1 - / Q <= kappa.

Lemma u_lt x y : x < y -> u x < u y.
Proof. intros H. destruct (Hlip x y) as [L _]; [lra|]. assert (0 < cmin * (y - x)) by (apply Rmult_lt_0_compat; lra). lra. Qed.

Lemma u_lt_inv x y : u x < u y -> x < y.
Proof.
  intros H. destruct (Rlt_dec x y) as [L|L]; [exact L|]. exfalso. destruct (Req_dec x y) as [-> | N]; [lra|].
  pose proof (u_lt y x ltac:(lra)). lra.
Qed.

Definition tracks (s : newton) : Prop := Unew s = u (Tnew s) /\ Cvnew s = cv (Tnew s) /\ unstable s = false.

Definition low (s : newton) (A B : R) : Prop :=
  tracks s /\ Tnew s < Ts /\ Tbot s = Tnew s /\ Ubot s = u (Tbot s) /\ Ts - Tnew s <= A /\
  ((Utop s < target /\ 100 <= kappa * B) \/ (Utop s = u (Ttop s) /\ Ts < Ttop s /\ Ttop s - Ts <= B)).

Definition high (s : newton) (A B : R) : Prop :=
  tracks s /\ Ts < Tnew s /\ Ttop s = Tnew s /\ Utop s = u (Ttop s) /\ Tnew s - Ts <= B /\
  ((target < Ubot s /\ 100 <= kappa * A) \/ (Ubot s = u (Tbot s) /\ Tbot s < Ts /\ Ts - Tbot s <= A)).

Definition at_root (s : newton) : Prop := tracks s /\ Tnew s = Ts /\ (Ubot s < target -> Tbot s < Ts).

Definition step (s : newton) : R := limited_step target s false (newton_step target (Unew s) (Cvnew s)).

Lemma ratio_bounds T : T <> Ts ->
  let x := (target - u T) / cv T in
  (T < Ts -> 0 < x /\ Ts - T <= Q * x /\ x <= Q * (Ts - T)) /\
  (Ts < T -> x < 0 /\ T - Ts <= Q * - x /\ - x <= Q * (T - Ts)).
Proof.
  intros N x. pose proof (Hcv T) as [C1 C2]. assert (0 < cv T) as C by lra.
  assert (x * cv T = target - u T) as E by (unfold x; field; lra).
  split; intros L.
  - destruct (Hlip T Ts ltac:(lra)) as [L1 L2]. rewrite Hroot in L1, L2.
    assert (0 < x) as X. { unfold x. apply Rdiv_lt_0_compat; [|exact C]. assert (0 < cmin * (Ts - T)) by (apply Rmult_lt_0_compat; lra). lra. }
    split; [exact X|]. split.
    + apply Rmult_le_reg_l with cmin; [exact Hc|]. apply Rle_trans with (x * cv T); [lra|].
      assert (x * cv T <= x * (Q * cmin)) by (apply Rmult_le_compat_l; lra). lra.
    + apply Rmult_le_reg_l with cmin; [exact Hc|]. apply Rle_trans with (x * cv T).
      * rewrite (Rmult_comm cmin). apply Rmult_le_compat_l; lra.
      * rewrite E. apply Rle_trans with (cmax * (Ts - T)); [exact L2|].
        assert (cmax * (Ts - T) <= Q * cmin * (Ts - T)) by (apply Rmult_le_compat_r; lra). lra.
  - destruct (Hlip Ts T ltac:(lra)) as [L1 L2]. rewrite Hroot in L1, L2.
    assert (0 < - x) as X.
    { replace (- x) with ((u T - target) / cv T) by (unfold x; field; lra). apply Rdiv_lt_0_compat; [|exact C].
      assert (0 < cmin * (T - Ts)) by (apply Rmult_lt_0_compat; lra). lra. }
    split; [lra|]. split.
    + apply Rmult_le_reg_l with cmin; [exact Hc|]. apply Rle_trans with (- x * cv T); [lra|].
      assert (- x * cv T <= - x * (Q * cmin)) by (apply Rmult_le_compat_l; lra). lra.
    + apply Rmult_le_reg_l with cmin; [exact Hc|]. apply Rle_trans with (- x * cv T).
      * rewrite (Rmult_comm cmin). apply Rmult_le_compat_l; lra.
      * replace (- x * cv T) with (u T - target) by lra. apply Rle_trans with (cmax * (T - Ts)); [exact L2|].
        assert (cmax * (T - Ts) <= Q * cmin * (T - Ts)) by (apply Rmult_le_compat_r; lra). lra.
Qed.

Lemma low_step s A B : low s A B ->
  let d := Ts - Tnew s in let dT := step s in
  0 < dT <= 100 /\ dT <= Q * d /\ (d <= Q * dT \/ dT = 100) /\
  (target < Utop s -> Tnew s + dT <= 3 / 4 * Ttop s + 1 / 4 * Tnew s).
Proof.
  intros ((H1 & H2 & H3) & HT & Hb & HU & HA & Htop) d dT.
  unfold dT, step, newton_step. rewrite H1, H2. destruct (ratio_bounds (Tnew s) ltac:(lra)) as [X _].
  destruct (X HT) as (X1 & X2 & X3). set (x := (target - u (Tnew s)) / cv (Tnew s)) in *. clearbody x.
  assert (exists y, Rmax (-100) (Rmin 100 x) = y /\ 0 < y <= 100 /\ y <= x /\ (y = x \/ y = 100)) as (y & -> & Y1 & Y2 & Y3).
  { exists (Rmin 100 x). rewrite Rmax_right; [|unfold Rmin; destruct (Rle_dec _ _); lra].
    split; [reflexivity|]. unfold Rmin. destruct (Rle_dec 100 x); split; try split; try lra; try (right; reflexivity); try (left; reflexivity). }
  unfold limited_step. destruct (Rlt_dec 0 y) as [P|P]; [|lra]. destruct (Rle_dec y 0) as [P2|P2]; [lra|]. cbn [orb].
  fold d in X2, X3.
  destruct (Rlt_dec target (Utop s)) as [U|U].
  - destruct Htop as [[V _]|(V & W & _)]; [lra|].
    destruct (Rlt_dec (3 / 4 * Ttop s + 1 / 4 * Tnew s) (Tnew s + y)) as [L|L].
    + split; [lra|]. split; [lra|]. split; [left; unfold d; assert (3/4 * (Ttop s - Tnew s) * (4/3) <= Q * (3 / 4 * (Ttop s - Tnew s))) by nra; lra|intros _; lra].
    + split; [lra|]. split; [lra|]. split; [destruct Y3 as [-> | ->]; [left; exact X2|right; reflexivity]|intros _; lra].
  - split; [lra|]. split; [lra|]. split; [destruct Y3 as [-> | ->]; [left; exact X2|right; reflexivity]|intros; lra].
Qed.

Lemma high_step s A B : high s A B ->
  let d := Tnew s - Ts in let dT := step s in
  -100 <= dT < 0 /\ - dT <= Q * d /\ (d <= Q * - dT \/ dT = -100) /\
  (Ubot s < target -> 3 / 4 * Tbot s + 1 / 4 * Tnew s <= Tnew s + dT).
Proof.
  intros ((H1 & H2 & H3) & HT & Hb & HU & HA & Hbot) d dT.
  unfold dT, step, newton_step. rewrite H1, H2. destruct (ratio_bounds (Tnew s) ltac:(lra)) as [_ X].
  destruct (X HT) as (X1 & X2 & X3). set (x := (target - u (Tnew s)) / cv (Tnew s)) in *. clearbody x.
  assert (exists y, Rmax (-100) (Rmin 100 x) = y /\ -100 <= y < 0 /\ x <= y /\ (y = x \/ y = -100)) as (y & -> & Y1 & Y2 & Y3).
  { exists (Rmax (-100) x). rewrite (Rmin_right 100 x) by lra. split; [reflexivity|].
    unfold Rmax. destruct (Rle_dec (-100) x); split; try split; try lra; try (right; reflexivity); try (left; reflexivity). }
  unfold limited_step. destruct (Rlt_dec 0 y) as [P|P]; [lra|]. destruct (Rle_dec y 0) as [P2|P2]; [|lra]. cbn [orb negb].
  fold d in X2, X3.
  destruct (Rlt_dec (Ubot s) target) as [U|U].
  - destruct Hbot as [[V _]|(V & W & _)]; [lra|].
    destruct (Rlt_dec (Tnew s + y) (3 / 4 * Tbot s + 1 / 4 * Tnew s)) as [L|L].
    + split; [lra|]. split; [lra|]. split; [left; unfold d; assert (3/4 * (Tnew s - Tbot s) * (4/3) <= Q * (3 / 4 * (Tnew s - Tbot s))) by nra; lra|intros _; lra].
    + split; [lra|]. split; [lra|]. split; [destruct Y3 as [-> | ->]; [left; exact X2|right; reflexivity]|intros _; lra].
  - split; [lra|]. split; [lra|]. split; [destruct Y3 as [-> | ->]; [left; exact X2|right; reflexivity]|intros; lra].
Qed.

Lemma root_step s : at_root s -> step s = 0.
Proof.
  intros ((H1 & H2 & H3) & HT & Hb). unfold step, newton_step. rewrite H1, H2, HT, Hroot.
  replace ((target - target) / cv Ts) with 0 by (unfold Rdiv; ring). rewrite (Rmin_right 100 0), Rmax_right by lra.
  unfold limited_step. destruct (Rlt_dec 0 0); [lra|]. destruct (Rle_dec 0 0); [|lra]. cbn [orb negb].
  destruct (Rlt_dec (Ubot s) target) as [U|U]; [|reflexivity]. specialize (Hb U).
  destruct (Rlt_dec _ _) as [L|L]; [|reflexivity]. rewrite HT in L. lra.
Qed.

(** the bounds after a pass *)
Definition next (s : newton) (T : R) : newton := l_state (new_bounds (mkLane u cv target s) T).

Lemma Q_pos : 0 < Q. Proof. lra. Qed.

(** how the distance shrinks on the same side *)
Lemma shrink d dT : 0 < d -> d <= Q * 100 -> (d <= Q * dT \/ dT = 100) -> d - dT <= kappa * d.
Proof.
  intros H1 H2 H3. pose proof Q_pos as P.
  assert (d / Q <= dT) as H.
  { destruct H3 as [H3 | ->]; apply Rmult_le_reg_l with Q; try lra; replace (Q * (d / Q)) with d by (field; lra); lra. }
  assert (d * (1 - / Q) <= d * kappa) by (apply Rmult_le_compat_l; lra). unfold Rdiv in H. lra.
Qed.

Lemma low_pass s A B : low s A B -> A <= Q * 100 ->
  let T := Tnew s + step s in
  u T = target \/ (u T < target /\ low (next s T) (kappa * A) B) \/ (target < u T /\ high (next s T) A (kappa * B)).
Proof.
  intros HL HA T. pose proof (low_step s A B HL) as (S1 & S2 & S3 & S4).
  destruct HL as (Ht & HT & Hb & HU & HA' & Htop).
  assert (Ubot s < target) as HUb by (rewrite HU, Hb, <- Hroot; apply u_lt; exact HT).
  destruct (Rtotal_order T Ts) as [L|[E|G]].
  - right. left. assert (u T < target) as UT by (rewrite <- Hroot; apply u_lt; exact L). split; [exact UT|].
    assert (Ubot s < u T) as UB by (rewrite HU, Hb; apply u_lt; unfold T; lra).
    unfold low, next, new_bounds. cbn [l_state l_u l_cv l_target Tnew Unew Cvnew Utop Ubot Ttop Tbot unstable].
    destruct (Rlt_dec target (u T)); [lra|]. destruct (Rlt_dec (u T) target); [|lra]. destruct (Rlt_dec target (Ubot s)); [lra|].
    destruct (Rlt_dec (Ubot s) (u T)); [|lra].
    split; [repeat split|]. split; [exact L|]. split; [reflexivity|]. split; [reflexivity|]. split; [|exact Htop].
    assert (Ts - Tnew s - step s <= kappa * (Ts - Tnew s)) as K by (apply shrink; [lra|lra|exact S3]).
    assert (kappa * (Ts - Tnew s) <= kappa * A) by (apply Rmult_le_compat_l; lra). unfold T. lra.
  - left. rewrite E. exact Hroot.
  - right. right. assert (target < u T) as UT by (rewrite <- Hroot; apply u_lt; exact G). split; [exact UT|].
    unfold high, next, new_bounds. cbn [l_state l_u l_cv l_target Tnew Unew Cvnew Utop Ubot Ttop Tbot unstable].
    destruct (Rlt_dec target (u T)); [|lra]. destruct (Rlt_dec (u T) target); [lra|].
    destruct Htop as [[V W]|(V & W & X)].
    + destruct (Rlt_dec (Utop s) target); [|lra].
      split; [repeat split|]. split; [exact G|]. split; [reflexivity|]. split; [reflexivity|]. split; [unfold T; lra|].
      right. split; [exact HU|]. rewrite Hb. split; [exact HT|exact HA'].
    + assert (target < Utop s) as VT by (rewrite V, <- Hroot; apply u_lt; exact W). specialize (S4 VT).
      destruct (Rlt_dec (Utop s) target); [lra|].
      assert (u T < Utop s) as UU by (rewrite V; apply u_lt; unfold T; lra). destruct (Rlt_dec (u T) (Utop s)); [|lra].
      split; [repeat split|]. split; [exact G|]. split; [reflexivity|]. split; [reflexivity|]. split.
      * assert (3 / 4 * (Ttop s - Ts) <= kappa * B).
        { apply Rle_trans with (3 / 4 * B); [lra|]. apply Rmult_le_compat_r; lra. }
        unfold T. lra.
      * right. split; [exact HU|]. rewrite Hb. split; [exact HT|exact HA'].
Qed.

Lemma high_pass s A B : high s A B -> B <= Q * 100 ->
  let T := Tnew s + step s in
  u T = target \/ (target < u T /\ high (next s T) A (kappa * B)) \/ (u T < target /\ low (next s T) (kappa * A) B).
Proof.
  intros HL HB T. pose proof (high_step s A B HL) as (S1 & S2 & S3 & S4).
  destruct HL as (Ht & HT & Hb & HU & HB' & Hbot).
  assert (target < Utop s) as HUt by (rewrite HU, Hb, <- Hroot; apply u_lt; exact HT).
  destruct (Rtotal_order T Ts) as [L|[E|G]].
  - right. right. assert (u T < target) as UT by (rewrite <- Hroot; apply u_lt; exact L). split; [exact UT|].
    unfold low, next, new_bounds. cbn [l_state l_u l_cv l_target Tnew Unew Cvnew Utop Ubot Ttop Tbot unstable].
    destruct (Rlt_dec target (u T)); [lra|]. destruct (Rlt_dec (u T) target); [|lra].
    destruct Hbot as [[V W]|(V & W & X)].
    + destruct (Rlt_dec target (Ubot s)); [|lra].
      split; [repeat split|]. split; [exact L|]. split; [reflexivity|]. split; [reflexivity|]. split; [unfold T; lra|].
      right. split; [exact HU|]. rewrite Hb. split; [exact HT|exact HB'].
    + assert (Ubot s < target) as VT by (rewrite V, <- Hroot; apply u_lt; exact W). specialize (S4 VT).
      destruct (Rlt_dec target (Ubot s)); [lra|].
      assert (Ubot s < u T) as UU by (rewrite V; apply u_lt; unfold T; lra). destruct (Rlt_dec (Ubot s) (u T)); [|lra].
      split; [repeat split|]. split; [exact L|]. split; [reflexivity|]. split; [reflexivity|]. split.
      * assert (3 / 4 * (Ts - Tbot s) <= kappa * A).
        { apply Rle_trans with (3 / 4 * A); [lra|]. apply Rmult_le_compat_r; lra. }
        unfold T. lra.
      * right. split; [exact HU|]. rewrite Hb. split; [exact HT|exact HB'].
  - left. rewrite E. exact Hroot.
  - right. left. assert (target < u T) as UT by (rewrite <- Hroot; apply u_lt; exact G). split; [exact UT|].
    assert (u T < Utop s) as UB by (rewrite HU, Hb; apply u_lt; unfold T; lra).
    unfold high, next, new_bounds. cbn [l_state l_u l_cv l_target Tnew Unew Cvnew Utop Ubot Ttop Tbot unstable].
    destruct (Rlt_dec target (u T)); [|lra]. destruct (Rlt_dec (Utop s) target); [lra|].
    destruct (Rlt_dec (u T) (Utop s)); [|lra]. destruct (Rlt_dec (u T) target); [lra|].
    split; [repeat split|]. split; [exact G|]. split; [reflexivity|]. split; [reflexivity|]. split; [|exact Hbot].
    assert (Tnew s - Ts - - step s <= kappa * (Tnew s - Ts)) as K by (apply shrink; [lra|lra|destruct S3 as [S3 | S3]; [left; exact S3|right; rewrite S3; ring]]).
    assert (kappa * (Tnew s - Ts) <= kappa * B) by (apply Rmult_le_compat_l; lra). unfold T. lra.
Qed.

(** far away: a step of 100 *)
Lemma low_far s A B : low s A B -> Q * 100 < Ts - Tnew s -> Utop s < target ->
  let T := Tnew s + step s in
  u T < target /\ low (next s T) (Ts - Tnew s - 100) B /\ Utop (next s T) < target /\ step s = 100.
Proof.
  intros HL HA Hno T. pose proof (low_step s A B HL) as (S1 & S2 & S3 & S4).
  destruct HL as (Ht & HT & Hb & HU & HA' & Htop).
  assert (step s = 100) as E.
  { unfold step, newton_step. destruct Ht as (H1 & H2 & H3). rewrite H1, H2. destruct (ratio_bounds (Tnew s) ltac:(lra)) as [X _].
    destruct (X HT) as (X1 & X2 & X3). set (x := (target - u (Tnew s)) / cv (Tnew s)) in *. clearbody x.
    assert (100 < x) by (apply Rmult_lt_reg_l with Q; lra). rewrite (Rmin_left 100 x), Rmax_right by lra.
    unfold limited_step. destruct (Rlt_dec 0 100); [|lra]. destruct (Rle_dec 100 0); [lra|]. cbn [orb].
    destruct (Rlt_dec target (Utop s)); [lra|reflexivity]. }
  assert (T < Ts) as L. { unfold T. rewrite E. assert (133 < Q * 100) by lra. lra. }
  assert (u T < target) as UT by (rewrite <- Hroot; apply u_lt; exact L). split; [exact UT|].
  assert (Ubot s < target) as HUb by (rewrite HU, Hb, <- Hroot; apply u_lt; exact HT).
  assert (Ubot s < u T) as UB by (rewrite HU, Hb; apply u_lt; unfold T; lra).
  unfold low, next, new_bounds. cbn [l_state l_u l_cv l_target Tnew Unew Cvnew Utop Ubot Ttop Tbot unstable].
  destruct (Rlt_dec target (u T)); [lra|]. destruct (Rlt_dec (u T) target); [|lra]. destruct (Rlt_dec target (Ubot s)); [lra|].
  destruct (Rlt_dec (Ubot s) (u T)); [|lra].
  split; [|split; [exact Hno|exact E]].
  split; [repeat split|]. split; [exact L|]. split; [reflexivity|]. split; [reflexivity|]. split; [unfold T; lra|exact Htop].
Qed.

Lemma high_far s A B : high s A B -> Q * 100 < Tnew s - Ts -> target < Ubot s ->
  let T := Tnew s + step s in
  target < u T /\ high (next s T) A (Tnew s - Ts - 100) /\ target < Ubot (next s T) /\ step s = -100.
Proof.
  intros HL HA Hno T. pose proof (high_step s A B HL) as (S1 & S2 & S3 & S4).
  destruct HL as (Ht & HT & Hb & HU & HA' & Hbot).
  assert (step s = -100) as E.
  { unfold step, newton_step. destruct Ht as (H1 & H2 & H3). rewrite H1, H2. destruct (ratio_bounds (Tnew s) ltac:(lra)) as [_ X].
    destruct (X HT) as (X1 & X2 & X3). set (x := (target - u (Tnew s)) / cv (Tnew s)) in *. clearbody x.
    assert (100 < - x) by (apply Rmult_lt_reg_l with Q; lra). rewrite (Rmin_right 100 x), Rmax_left by lra.
    unfold limited_step. destruct (Rlt_dec 0 (-100)); [lra|]. destruct (Rle_dec (-100) 0); [|lra]. cbn [orb negb].
    destruct (Rlt_dec (Ubot s) target); [lra|reflexivity]. }
  assert (Ts < T) as L. { unfold T. rewrite E. assert (133 < Q * 100) by lra. lra. }
  assert (target < u T) as UT by (rewrite <- Hroot; apply u_lt; exact L). split; [exact UT|].
  assert (target < Utop s) as HUt by (rewrite HU, Hb, <- Hroot; apply u_lt; exact HT).
  assert (u T < Utop s) as UB by (rewrite HU, Hb; apply u_lt; unfold T; lra).
  unfold high, next, new_bounds. cbn [l_state l_u l_cv l_target Tnew Unew Cvnew Utop Ubot Ttop Tbot unstable].
  destruct (Rlt_dec target (u T)); [|lra]. destruct (Rlt_dec (Utop s) target); [lra|].
  destruct (Rlt_dec (u T) (Utop s)); [|lra]. destruct (Rlt_dec (u T) target); [lra|].
  split; [|split; [exact Hno|exact E]].
  split; [repeat split|]. split; [exact L|]. split; [reflexivity|]. split; [reflexivity|]. split; [unfold T; lra|exact Hbot].
Qed.

(** accuracy of the result when the last step was small *)
Lemma accurate_low s A B tol : low s A B -> 0 < tol <= 100 -> Rabs (step s) < tol -> Rabs (Tnew s + step s - Ts) <= Q * tol.
Proof.
  intros HL Ht Hs. pose proof (low_step s A B HL) as (S1 & S2 & S3 & S4). destruct HL as (_ & HT & _).
  rewrite Rabs_right in Hs by lra. destruct S3 as [S3|S3]; [|lra].
  assert (tol <= Q * tol) by nra. assert (Q * step s <= Q * tol) by (apply Rmult_le_compat_l; lra).
  apply Rabs_le. lra.
Qed.

Lemma accurate_high s A B tol : high s A B -> 0 < tol <= 100 -> Rabs (step s) < tol -> Rabs (Tnew s + step s - Ts) <= Q * tol.
Proof.
  intros HL Ht Hs. pose proof (high_step s A B HL) as (S1 & S2 & S3 & S4). destruct HL as (_ & HT & _).
  rewrite Rabs_left in Hs by lra. destruct S3 as [S3|S3]; [|lra].
  assert (tol <= Q * tol) by nra. assert (Q * - step s <= Q * tol) by (apply Rmult_le_compat_l; lra).
  apply Rabs_le. lra.
Qed.

(** when the distance is small the step is small *)
Lemma small_low s A B tol : low s A B -> A * Q < tol -> Rabs (step s) < tol.
Proof.
  intros HL Ht. pose proof (low_step s A B HL) as (S1 & S2 & S3 & S4). destruct HL as (_ & HT & _ & _ & HA & _).
  rewrite Rabs_right by lra. assert (Q * (Ts - Tnew s) <= Q * A) by (apply Rmult_le_compat_l; lra). lra.
Qed.

Lemma small_high s A B tol : high s A B -> B * Q < tol -> Rabs (step s) < tol.
Proof.
  intros HL Ht. pose proof (high_step s A B HL) as (S1 & S2 & S3 & S4). destruct HL as (_ & HT & _ & _ & HA & _).
  rewrite Rabs_left by lra. assert (Q * (Tnew s - Ts) <= Q * B) by (apply Rmult_le_compat_l; lra). lra.
Qed.
End Lane.
