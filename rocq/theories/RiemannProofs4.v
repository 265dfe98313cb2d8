(** Lemmas for C77: the pressure function of the Riemann problem. *)
From Coq Require Import List Reals Lia Lra Psatz Bool Ranalysis5 ZArith.
From Verif Require Import GasModel GasSpec GasProofs NewtonModel NewtonSpec NewtonProofs NewtonProofs2 RiemannModel RiemannSpec RiemannProofs RiemannProofs2.
Import ListNotations.
Local Open Scope R_scope.

Lemma derivable_glue f f1 f2 a k :
  (forall x, x <= a -> f x = f1 x) -> (forall x, a < x -> f x = f2 x) -> f1 a = f2 a ->
  derivable_pt_lim f1 a k -> derivable_pt_lim f2 a k -> derivable_pt_lim f a k.
Proof.
  intros H1 H2 E D1 D2 e He. destruct (D1 e He) as [d1 P1]. destruct (D2 e He) as [d2 P2].
  assert (0 < Rmin d1 d2) as Pm by (apply Rmin_glb_lt; apply cond_pos).
  exists (mkposreal _ Pm). intros h Hh Hl. cbn in Hl. pose proof (Rmin_l d1 d2). pose proof (Rmin_r d1 d2).
  rewrite (H1 a) by lra. destruct (Rle_dec (a + h) a) as [L|L].
  - rewrite H1 by exact L. apply P1; [exact Hh|lra].
  - rewrite H2 by lra. rewrite E. apply P2; [exact Hh|lra].
Qed.

Lemma derivable_near f f1 a k e : 0 < e -> (forall x, a - e < x < a + e -> f x = f1 x) ->
  derivable_pt_lim f1 a k -> derivable_pt_lim f a k.
Proof.
  intros He H D eps Heps. destruct (D eps Heps) as [d P].
  assert (0 < Rmin d e) as Pm by (apply Rmin_glb_lt; [apply cond_pos|exact He]).
  exists (mkposreal _ Pm). intros h Hh Hl. cbn in Hl. pose proof (Rmin_l d e). pose proof (Rmin_r d e).
  pose proof (Rle_abs h). assert (- h <= Rabs h) by (rewrite <- Rabs_Ropp; apply Rle_abs).
  rewrite (H a), (H (a + h)) by lra. apply P; [exact Hh|lra].
Qed.

Section Phi.
Variables (g : gas) (q : Complete).
Hypothesis Hg : perfect g.
Hypothesis Hq : admissible g q.
Let ga := gamma g.
Let rho0 := density q.
Let p0 := pressure q.
Let a0 := speed_of_sound q.

Definition shock_A : R := 2 / ((gamma g + 1) * density q).
Definition shock_B : R := (gamma g - 1) / (gamma g + 1) * pressure q.
Definition phi_s (p : R) : R := (p - pressure q) * sqrt (shock_A / (p + shock_B)).
Definition phi_r (p : R) : R :=
  2 * speed_of_sound q / (gamma g - 1) * (Rpower (p / pressure q) ((gamma g - 1) / (2 * gamma g)) - 1).
Definition dphi_s (p : R) : R := (1 - 1 / 2 * (p - pressure q) / (shock_B + p)) * sqrt (shock_A / (shock_B + p)).
Definition dphi_r (p : R) : R := / (density q * speed_of_sound q) * Rpower (p / pressure q) (- (1 / 2) * (gamma g + 1) / gamma g).
Definition dphi (p : R) : R := if Rlt_dec (pressure q) p then dphi_s p else dphi_r p.

Lemma facts : 1 < ga /\ 0 < rho0 /\ 0 < p0 /\ 0 < a0 /\ rho0 * (a0 * a0) = ga * p0 /\ 0 < shock_A /\ 0 < shock_B.
Proof.
  destruct (side_facts g q Hg Hq) as (G & Hr & Hp & Ha & He). repeat split; auto.
  - apply Rdiv_lt_0_compat; [lra|]. apply Rmult_lt_0_compat; lra.
  - apply Rmult_lt_0_compat; [apply Rdiv_lt_0_compat; lra|exact Hp].
Qed.

Lemma phi_eq p : phi g q p = if Rlt_dec p0 p then phi_s p else phi_r p.
Proof. reflexivity. Qed.

Lemma df_side_dphi p : 0 < p -> df_side g q p = Fin (dphi p).
Proof.
  intros H. destruct facts as (G & Hr & Hp & Ha & He & HA & HB). unfold df_side, dphi, dphi_s, dphi_r. cbv zeta.
  fold shock_A shock_B. destruct (Rlt_dec (pressure q) p) as [L|L].
  - unfold dsqrt. destruct (Rlt_dec _ 0) as [N|N]; [|reflexivity].
    assert (0 < shock_A / (shock_B + p)) by (apply Rdiv_lt_0_compat; lra). lra.
  - unfold dpow. destruct (Rlt_dec 0 (p / pressure q)) as [P|P]; [reflexivity|].
    exfalso. apply P. apply Rdiv_lt_0_compat; [lra|exact Hp].
Qed.

Lemma dphi_s_alt p : p0 <= p -> dphi_s p = 1 / 2 * (1 + (p0 + shock_B) / (p + shock_B)) * sqrt (shock_A / (p + shock_B)).
Proof.
  intros H. destruct facts as (G & Hr & Hp & Ha & He & HA & HB). unfold dphi_s. rewrite (Rplus_comm shock_B p).
  fold p0. f_equal. field. lra.
Qed.

Lemma derivable_shock p : p0 <= p -> derivable_pt_lim phi_s p (dphi_s p).
Proof.
  intros H. destruct facts as (G & Hr & Hp & Ha & He & HA & HB).
  assert (0 < p + shock_B) as Y by lra. assert (0 < shock_A / (p + shock_B)) as Q by (apply Rdiv_lt_0_compat; lra).
  assert (derivable_pt_lim (fun x => shock_A / (x + shock_B)) p (- shock_A / ((p + shock_B) * (p + shock_B)))) as D1.
  { apply derivable_pt_lim_ext with (fun x => shock_A * / (x + shock_B)); [intros; reflexivity|].
    replace (- shock_A / ((p + shock_B) * (p + shock_B))) with (shock_A * (- / ((p + shock_B) * (p + shock_B)) * 1)) by (field; lra).
    apply derivable_pt_lim_scal. apply (derivable_pt_lim_comp (fun x => x + shock_B) Rinv).
    - replace 1 with (1 + 0) by ring. apply derivable_pt_lim_plus; [apply derivable_pt_lim_id | apply derivable_pt_lim_const].
    - apply derivable_pt_lim_ext with (fun x => 1 / x); [intros; unfold Rdiv; ring|].
      replace (- / ((p + shock_B) * (p + shock_B))) with ((0 * (p + shock_B) - 1 * 1) / Rsqr (p + shock_B)) by (unfold Rsqr; field; lra).
      apply (derivable_pt_lim_div (fct_cte 1) id); [apply derivable_pt_lim_const | apply derivable_pt_lim_id | unfold id; lra]. }
  assert (derivable_pt_lim (fun x => sqrt (shock_A / (x + shock_B))) p
            (/ (2 * sqrt (shock_A / (p + shock_B))) * (- shock_A / ((p + shock_B) * (p + shock_B))))) as D2.
  { apply (derivable_pt_lim_comp (fun x => shock_A / (x + shock_B)) sqrt); [exact D1|]. apply derivable_pt_lim_sqrt. exact Q. }
  assert (derivable_pt_lim (fun x => x - p0) p 1) as D3.
  { replace 1 with (1 - 0) by ring. apply (derivable_pt_lim_minus id (fct_cte p0)); [apply derivable_pt_lim_id | apply derivable_pt_lim_const]. }
  pose proof (derivable_pt_lim_mult _ _ _ _ _ D3 D2) as D.
  replace (dphi_s p) with (1 * sqrt (shock_A / (p + shock_B)) +
    (p - p0) * (/ (2 * sqrt (shock_A / (p + shock_B))) * (- shock_A / ((p + shock_B) * (p + shock_B))))); [exact D|].
  unfold dphi_s. rewrite (Rplus_comm shock_B p). fold p0.
  pose proof (sqrt_sqrt (shock_A / (p + shock_B)) (Rlt_le _ _ Q)) as SS. pose proof (sqrt_lt_R0 _ Q) as SP.
  set (z := sqrt (shock_A / (p + shock_B))) in *. clearbody z.
  replace (- shock_A / ((p + shock_B) * (p + shock_B))) with (- (z * z) / (p + shock_B)) by (rewrite SS; field; lra).
  field. lra.
Qed.

Lemma derivable_rarefaction p : 0 < p -> derivable_pt_lim phi_r p (dphi_r p).
Proof.
  intros H. destruct facts as (G & Hr & Hp & Ha & He & HA & HB). fold ga rho0 p0 a0.
  assert (0 < p / p0) as Q by (apply Rdiv_lt_0_compat; lra).
  set (e := (ga - 1) / (2 * ga)).
  assert (derivable_pt_lim (fun x => x / p0) p (/ p0)) as D1.
  { apply derivable_pt_lim_ext with (fun x => / p0 * x); [intros; unfold Rdiv; ring|].
    pose proof (derivable_pt_lim_scal id (/ p0) p 1 (derivable_pt_lim_id p)) as D0. rewrite Rmult_1_r in D0. exact D0. }
  pose proof (derivable_power_affine (fun x => x / p0) e (/ p0) p Q D1) as D2.
  assert (derivable_pt_lim (fun x => Rpower (x / p0) e - 1) p (e * (Rpower (p / p0) e / (p / p0)) * / p0)) as D3.
  { replace (e * (Rpower (p / p0) e / (p / p0)) * / p0) with (e * (Rpower (p / p0) e / (p / p0)) * / p0 - 0) by ring.
    apply (derivable_pt_lim_minus _ (fct_cte 1)); [exact D2 | apply derivable_pt_lim_const]. }
  pose proof (derivable_pt_lim_scal _ (2 * a0 / (ga - 1)) _ _ D3) as D.
  replace (dphi_r p) with (2 * a0 / (ga - 1) * (e * (Rpower (p / p0) e / (p / p0)) * / p0)); [exact D|].
  unfold dphi_r. fold ga rho0 p0 a0. replace (- (1 / 2) * (ga + 1) / ga) with (e - 1) by (unfold e; field; lra).
  rewrite Rpower_pred by exact Q. set (w := Rpower (p / p0) e / (p / p0)).
  replace (/ (rho0 * a0)) with (a0 / (ga * p0)) by (rewrite <- He; field; lra). unfold e. field. lra.
Qed.

Lemma sqrt_p0 : sqrt (shock_A / (p0 + shock_B)) = / (rho0 * a0).
Proof.
  destruct facts as (G & Hr & Hp & Ha & He & HA & HB).
  assert (0 < rho0 * a0) as P by (apply Rmult_lt_0_compat; lra).
  replace (shock_A / (p0 + shock_B)) with (/ (rho0 * a0) * / (rho0 * a0)).
  - apply sqrt_square. apply Rlt_le, Rinv_0_lt_compat. exact P.
  - unfold shock_A, shock_B. fold ga rho0 p0.
    replace (2 / ((ga + 1) * rho0) / (p0 + (ga - 1) / (ga + 1) * p0)) with (/ (rho0 * (ga * p0))) by (field; repeat split; try lra; nra).
    rewrite <- He. field. lra.
Qed.

Lemma phi_s_p0 : phi_s p0 = 0.
Proof. unfold phi_s. fold p0. ring. Qed.
Lemma phi_r_p0 : phi_r p0 = 0.
Proof.
  destruct facts as (G & Hr & Hp & Ha & He & HA & HB). unfold phi_r. fold p0 ga.
  replace (p0 / p0) with 1 by (field; lra). rewrite Rpower_base_1. ring.
Qed.
Lemma dphi_s_p0 : dphi_s p0 = / (rho0 * a0).
Proof. rewrite dphi_s_alt by lra. rewrite sqrt_p0. destruct facts as (G & Hr & Hp & Ha & He & HA & HB). field. lra. Qed.
Lemma dphi_r_p0 : dphi_r p0 = / (rho0 * a0).
Proof.
  destruct facts as (G & Hr & Hp & Ha & He & HA & HB). unfold dphi_r. fold p0 ga.
  replace (p0 / p0) with 1 by (field; lra). rewrite Rpower_base_1. fold rho0 a0. ring.
Qed.

Lemma phi_p0 : phi g q p0 = 0.
Proof. rewrite phi_eq. destruct (Rlt_dec p0 p0); [lra|apply phi_r_p0]. Qed.

Lemma derivable_phi p : 0 < p -> derivable_pt_lim (phi g q) p (dphi p).
Proof.
  intros H. destruct facts as (G & Hr & Hp & Ha & He & HA & HB). unfold dphi. fold p0.
  destruct (Rtotal_order p p0) as [L|[-> |L]].
  - destruct (Rlt_dec p0 p); [lra|]. apply derivable_near with phi_r (p0 - p); [lra| |apply derivable_rarefaction; exact H].
    intros x Hx. rewrite phi_eq. destruct (Rlt_dec p0 x); [lra|reflexivity].
  - destruct (Rlt_dec p0 p0); [lra|]. apply derivable_glue with phi_r phi_s.
    + intros x Hx. rewrite phi_eq. destruct (Rlt_dec p0 x); [lra|reflexivity].
    + intros x Hx. rewrite phi_eq. destruct (Rlt_dec p0 x); [reflexivity|lra].
    + rewrite phi_r_p0, phi_s_p0. reflexivity.
    + apply derivable_rarefaction. exact H.
    + rewrite dphi_r_p0, <- dphi_s_p0. apply derivable_shock. lra.
  - destruct (Rlt_dec p0 p); [|lra]. apply derivable_near with phi_s (p - p0); [lra| |apply derivable_shock; lra].
    intros x Hx. rewrite phi_eq. destruct (Rlt_dec p0 x); [reflexivity|lra].
Qed.

Lemma dphi_positive p : 0 < p -> 0 < dphi p.
Proof.
  intros H. destruct facts as (G & Hr & Hp & Ha & He & HA & HB). unfold dphi. fold p0. destruct (Rlt_dec p0 p).
  - rewrite dphi_s_alt by lra. apply Rmult_lt_0_compat.
    + assert (0 < (p0 + shock_B) / (p + shock_B)) by (apply Rdiv_lt_0_compat; lra). lra.
    + apply sqrt_lt_R0. apply Rdiv_lt_0_compat; lra.
  - apply Rmult_lt_0_compat; [apply Rinv_0_lt_compat, Rmult_lt_0_compat; auto | apply Rpower_pos].
Qed.

Lemma dphi_s_antitone x y : p0 <= x -> x <= y -> dphi_s y <= dphi_s x.
Proof.
  intros H1 H2. destruct facts as (G & Hr & Hp & Ha & He & HA & HB). rewrite !dphi_s_alt by lra.
  assert (/ (y + shock_B) <= / (x + shock_B)) as I by (apply Rinv_le_contravar; lra).
  assert (0 < / (y + shock_B)) as I0 by (apply Rinv_0_lt_compat; lra).
  apply Rmult_le_compat.
  - assert (0 < (p0 + shock_B) / (y + shock_B)) by (apply Rdiv_lt_0_compat; lra). lra.
  - apply sqrt_pos.
  - unfold Rdiv. assert ((p0 + shock_B) * / (y + shock_B) <= (p0 + shock_B) * / (x + shock_B)) by (apply Rmult_le_compat_l; lra). lra.
  - apply sqrt_le_1_alt. unfold Rdiv. apply Rmult_le_compat_l; lra.
Qed.

Lemma dphi_r_antitone x y : 0 < x -> x <= y -> dphi_r y <= dphi_r x.
Proof.
  intros H1 H2. destruct facts as (G & Hr & Hp & Ha & He & HA & HB). unfold dphi_r. fold p0 ga rho0 a0.
  apply Rmult_le_compat_l; [apply Rlt_le, Rinv_0_lt_compat, Rmult_lt_0_compat; auto|].
  replace (- (1 / 2) * (ga + 1) / ga) with (- ((ga + 1) / (2 * ga))) by (field; lra). rewrite !Rpower_Ropp.
  apply Rinv_le_contravar; [apply Rpower_pos|]. apply Rle_Rpower_l.
  - apply Rlt_le, Rdiv_lt_0_compat; lra.
  - split; [apply Rdiv_lt_0_compat; lra|]. unfold Rdiv. apply Rmult_le_compat_r; [apply Rlt_le, Rinv_0_lt_compat; lra|exact H2].
Qed.

Lemma dphi_antitone x y : 0 < x -> x <= y -> dphi y <= dphi x.
Proof.
  intros H1 H2. destruct facts as (G & Hr & Hp & Ha & He & HA & HB). unfold dphi. fold p0.
  destruct (Rlt_dec p0 y) as [Ly|Ly]; destruct (Rlt_dec p0 x) as [Lx|Lx]; try lra.
  - apply dphi_s_antitone; lra.
  - apply Rle_trans with (dphi_s p0); [apply dphi_s_antitone; lra|]. rewrite dphi_s_p0, <- dphi_r_p0.
    apply dphi_r_antitone; lra.
  - apply dphi_r_antitone; lra.
Qed.

Lemma phi_increasing x y : 0 < x -> x < y -> phi g q x < phi g q y.
Proof.
  intros H1 H2. destruct (MVT_cor2 (phi g q) dphi x y H2) as (c & E & Hc).
  - intros c Hc. apply derivable_phi. lra.
  - assert (0 < dphi c * (y - x)) by (apply Rmult_lt_0_compat; [apply dphi_positive|]; lra). lra.
Qed.

Lemma phi_tangent x y : 0 < x -> 0 < y -> phi g q y <= phi g q x + dphi x * (y - x).
Proof.
  intros H1 H2. destruct (Rtotal_order x y) as [L|[-> |L]].
  - destruct (MVT_cor2 (phi g q) dphi x y L) as (c & E & Hc).
    + intros c Hc. apply derivable_phi. lra.
    + pose proof (dphi_antitone x c H1 ltac:(lra)). assert (dphi c * (y - x) <= dphi x * (y - x)) by (apply Rmult_le_compat_r; lra). lra.
  - lra.
  - destruct (MVT_cor2 (phi g q) dphi y x L) as (c & E & Hc).
    + intros c Hc. apply derivable_phi. lra.
    + pose proof (dphi_antitone c x ltac:(lra) ltac:(lra)). assert (dphi x * (x - y) <= dphi c * (x - y)) by (apply Rmult_le_compat_r; lra). lra.
Qed.

Lemma phi_above p : 0 < p -> - (2 / (gamma g - 1) * speed_of_sound q) < phi g q p.
Proof.
  intros H. destruct facts as (G & Hr & Hp & Ha & He & HA & HB). fold ga a0.
  assert (0 < 2 / (ga - 1) * a0) by (apply Rmult_lt_0_compat; [apply Rdiv_lt_0_compat|]; lra).
  rewrite phi_eq. destruct (Rlt_dec p0 p).
  - assert (0 <= phi_s p); [|lra]. unfold phi_s. fold p0. apply Rmult_le_pos; [lra|apply sqrt_pos].
  - unfold phi_r. fold p0 ga a0. pose proof (Rpower_pos (p / p0) ((ga - 1) / (2 * ga))) as P.
    replace (2 * a0 / (ga - 1)) with (2 / (ga - 1) * a0) by (field; lra).
    assert (0 < 2 / (ga - 1) * a0 * Rpower (p / p0) ((ga - 1) / (2 * ga))) by (apply Rmult_lt_0_compat; lra). lra.
Qed.

(** close to its infimum for small pressures *)
Lemma phi_small e : 0 < e -> exists p, 0 < p /\ forall x, 0 < x <= p -> phi g q x < - (2 / (gamma g - 1) * speed_of_sound q) + e.
Proof.
  intros H. destruct facts as (G & Hr & Hp & Ha & He & HA & HB). fold ga a0.
  assert (0 < 2 / (ga - 1) * a0) as K by (apply Rmult_lt_0_compat; [apply Rdiv_lt_0_compat|]; lra).
  set (k := 2 / (ga - 1) * a0) in *.
  set (t := Rmin 1 (e / (2 * k))).
  assert (0 < t <= 1) as Ht.
  { unfold t. split; [apply Rmin_glb_lt; [lra|apply Rdiv_lt_0_compat; lra] | apply Rmin_l]. }
  assert (0 < (ga - 1) / (2 * ga)) as E0 by (apply Rdiv_lt_0_compat; lra).
  exists (p0 * Rpower t (2 * ga / (ga - 1))).
  assert (Rpower t (2 * ga / (ga - 1)) <= 1) as R1.
  { rewrite <- (Rpower_base_1 (2 * ga / (ga - 1))) at 2. apply Rle_Rpower_l; [|lra].
    apply Rlt_le, Rdiv_lt_0_compat; lra. }
  pose proof (Rpower_pos t (2 * ga / (ga - 1))) as R0.
  split; [apply Rmult_lt_0_compat; auto|]. intros x Hx. rewrite phi_eq. destruct (Rlt_dec p0 x) as [L|L]; [nra|].
  unfold phi_r. fold p0 ga a0. replace (2 * a0 / (ga - 1)) with k by (unfold k; field; lra).
  assert (Rpower (x / p0) ((ga - 1) / (2 * ga)) <= t) as B.
  { apply Rle_trans with (Rpower (Rpower t (2 * ga / (ga - 1))) ((ga - 1) / (2 * ga))).
    - apply Rle_Rpower_l; [lra|]. split; [apply Rdiv_lt_0_compat; lra|].
      apply Rmult_le_reg_r with p0; [exact Hp|]. replace (x / p0 * p0) with x by (field; lra). lra.
    - rewrite Rpower_mult. replace (2 * ga / (ga - 1) * ((ga - 1) / (2 * ga))) with 1 by (field; lra).
      rewrite Rpower_1 by lra. lra. }
  assert (t <= e / (2 * k)) as T by apply Rmin_r.
  assert (k * t <= e / 2).
  { apply Rle_trans with (k * (e / (2 * k))); [apply Rmult_le_compat_l; lra|]. replace (k * (e / (2 * k))) with (e / 2) by (field; lra). lra. }
  assert (k * Rpower (x / p0) ((ga - 1) / (2 * ga)) <= k * t) by (apply Rmult_le_compat_l; lra). lra.
Qed.

Lemma phi_large M : exists p, 0 < p /\ forall x, p <= x -> M < phi g q x.
Proof.
  destruct facts as (G & Hr & Hp & Ha & He & HA & HB). fold p0.
  assert (shock_B < p0) as Bp.
  { unfold shock_B. fold ga p0. assert ((ga - 1) / (ga + 1) < 1) by (apply Rmult_lt_reg_r with (ga + 1); [lra|];
      replace ((ga - 1) / (ga + 1) * (ga + 1)) with (ga - 1) by (field; lra); lra). nra. }
  set (N := Rabs M + 1). assert (0 < N) as PN by (unfold N; pose proof (Rabs_pos M); lra).
  assert (0 < 8 * (N * N) / shock_A) as PP by (apply Rdiv_lt_0_compat; nra).
  exists (2 * p0 + 8 * (N * N) / shock_A). split; [lra|]. intros x Hx.
  apply Rlt_le_trans with N; [unfold N; pose proof (Rle_abs M); lra|].
  rewrite phi_eq. destruct (Rlt_dec p0 x); [|lra]. unfold phi_s. fold p0.
  apply Rsqr_incr_0_var; [|apply Rmult_le_pos; [lra|apply sqrt_pos]].
  unfold Rsqr. assert (0 < shock_A / (x + shock_B)) as Q by (apply Rdiv_lt_0_compat; lra).
  pose proof (sqrt_sqrt _ (Rlt_le _ _ Q)) as SS. set (z := sqrt (shock_A / (x + shock_B))) in *.
  replace ((x - p0) * z * ((x - p0) * z)) with ((x - p0) * (x - p0) * (z * z)) by ring. rewrite SS.
  assert (x / 2 * (x / 2) <= (x - p0) * (x - p0)) as H1 by nra.
  assert (shock_A / (2 * x) <= shock_A / (x + shock_B)) as H2.
  { unfold Rdiv. apply Rmult_le_compat_l; [lra|]. apply Rinv_le_contravar; lra. }
  apply Rle_trans with (x / 2 * (x / 2) * (shock_A / (2 * x))).
  - replace (x / 2 * (x / 2) * (shock_A / (2 * x))) with (x * (shock_A / 8)) by (field; lra).
    apply Rle_trans with (8 * (N * N) / shock_A * (shock_A / 8)).
    + right. field. lra.
    + apply Rmult_le_compat_r; lra.
  - apply Rmult_le_compat; try nra. apply Rlt_le, Rdiv_lt_0_compat; lra.
Qed.
End Phi.

(** ** The pressure function *)

Section Pressure.
Variables (g : gas) (l r : Complete) (d : nat).
Hypothesis Hg : perfect g.
Hypothesis Hl : admissible g l.
Hypothesis Hr : admissible g r.

Definition F (p : R) : R := phi g r p + phi g l p + (velocity r d - velocity l d).
Definition DF (p : R) : R := dphi g r p + dphi g l p.

Lemma f_pressure_F p : 0 < p -> f_pressure g l r d p = Fin (F p).
Proof. intros H. unfold f_pressure. rewrite !f_side_phi by auto. reflexivity. Qed.

Lemma df_pressure_DF p : 0 < p -> df_pressure g l r p = Fin (DF p).
Proof. intros H. unfold df_pressure. rewrite !df_side_dphi by auto. reflexivity. Qed.

Lemma F_increasing x y : 0 < x -> x < y -> F x < F y.
Proof.
  intros H1 H2. unfold F. pose proof (phi_increasing g l Hg Hl x y H1 H2). pose proof (phi_increasing g r Hg Hr x y H1 H2). lra.
Qed.

Lemma F_tangent x y : 0 < x -> 0 < y -> F y <= F x + DF x * (y - x).
Proof.
  intros H1 H2. unfold F, DF. pose proof (phi_tangent g l Hg Hl x y H1 H2). pose proof (phi_tangent g r Hg Hr x y H1 H2). lra.
Qed.

Lemma DF_positive x : 0 < x -> 0 < DF x.
Proof.
  intros H. unfold DF. pose proof (dphi_positive g l Hg Hl x H). pose proof (dphi_positive g r Hg Hr x H). lra.
Qed.

Lemma F_continuous x : 0 < x -> continuity_pt F x.
Proof.
  intros H. apply derivable_continuous_pt. exists (DF x). unfold F, DF.
  replace (dphi g r x + dphi g l x) with (dphi g r x + dphi g l x + 0) by ring.
  apply (derivable_pt_lim_plus (fun p => phi g r p + phi g l p) (fct_cte _)); [|apply derivable_pt_lim_const].
  apply derivable_pt_lim_plus; apply derivable_phi; auto.
Qed.

Lemma root_exists : ~ vacuum g d l r -> exists p, 0 < p /\ F p = 0.
Proof.
  intros V. unfold vacuum in V. change (speed r d) with (velocity r d) in V. change (speed l d) with (velocity l d) in V.
  set (gap := 2 / (gamma g - 1) * (speed_of_sound l + speed_of_sound r) - (velocity r d - velocity l d)).
  assert (0 < gap) as G by (unfold gap; lra).
  destruct (phi_small g l Hg Hl (gap / 2) ltac:(lra)) as (pl & Pl & Sl).
  destruct (phi_small g r Hg Hr (gap / 2) ltac:(lra)) as (pr & Pr & Sr).
  destruct (phi_large g l Hg Hl (Rabs (velocity r d - velocity l d))) as (ql & Ql & Ll).
  destruct (phi_large g r Hg Hr 0) as (qr & Qr & Lr).
  set (a := Rmin pl pr). set (b := Rmax ql qr).
  assert (0 < a) as Pa by (apply Rmin_glb_lt; lra).
  assert (F a < 0) as Fa.
  { pose proof (Rmin_l pl pr). pose proof (Rmin_r pl pr). unfold F. specialize (Sl a ltac:(unfold a in *; lra)).
    specialize (Sr a ltac:(unfold a in *; lra)). unfold gap in *. lra. }
  assert (0 < F b) as Fb.
  { pose proof (Rmax_l ql qr). pose proof (Rmax_r ql qr). unfold F. specialize (Ll b ltac:(unfold b in *; lra)).
    specialize (Lr b ltac:(unfold b in *; lra)).
    assert (- (velocity r d - velocity l d) <= Rabs (velocity r d - velocity l d)) by (rewrite <- Rabs_Ropp; apply Rle_abs). lra. }
  assert (0 < b) as Pb by (unfold b; pose proof (Rmax_l ql qr); lra).
  assert (a < b) as AB.
  { destruct (Rlt_dec a b); auto. exfalso. destruct (Req_dec a b) as [E|N]; [rewrite E in Fa; lra|].
    pose proof (F_increasing b a Pb ltac:(lra)). lra. }
  destruct (IVT_interv F a b) as (z & Hz & Ez); auto.
  - intros x Hx. apply F_continuous. lra.
  - exists z. split; [lra|exact Ez].
Qed.

Lemma root_unique p p' : 0 < p -> 0 < p' -> F p = 0 -> F p' = 0 -> p = p'.
Proof.
  intros H1 H2 E1 E2. destruct (Rtotal_order p p') as [L|[L|L]]; auto; exfalso.
  - pose proof (F_increasing p p' H1 L). lra.
  - pose proof (F_increasing p' p H2 L). lra.
Qed.

Lemma vacuum_above p gap : 0 < p -> 2 / (gamma g - 1) * (speed_of_sound l + speed_of_sound r) + gap <= velocity r d - velocity l d -> gap < F p.
Proof.
  intros H V. unfold F. pose proof (phi_above g l Hg Hl p H). pose proof (phi_above g r Hg Hr p H). lra.
Qed.

Lemma middle_velocity_fin p : 0 < p ->
  middle_velocity g l r d p = Fin (1 / 2 * (velocity l d + velocity r d) + 1 / 2 * (phi g r p - phi g l p)).
Proof.
  intros H. unfold middle_velocity. rewrite !f_side_phi by auto. cbn [dadd dscale]. f_equal. lra.
Qed.

(** the residual of the pressure is the only reason for which the velocity is not exact *)
Lemma velocity_error p ps : 0 < p -> 0 < ps -> F ps = 0 ->
  Rabs (1 / 2 * (velocity l d + velocity r d) + 1 / 2 * (phi g r p - phi g l p) - (velocity l d - phi g l ps)) <= Rabs (F p) / 2.
Proof.
  intros H Hs E. unfold F in *.
  assert (phi g r ps = - phi g l ps - (velocity r d - velocity l d)) as E1 by lra.
  destruct (Rtotal_order p ps) as [L|[-> |L]].
  - pose proof (phi_increasing g l Hg Hl p ps H L). pose proof (phi_increasing g r Hg Hr p ps H L).
    rewrite (Rabs_left1 (phi g r p + phi g l p + (velocity r d - velocity l d))) by lra. apply Rabs_le. lra.
  - rewrite (Rabs_right (phi g r ps + phi g l ps + (velocity r d - velocity l d))) by lra. apply Rabs_le. lra.
  - pose proof (phi_increasing g l Hg Hl ps p Hs L). pose proof (phi_increasing g r Hg Hr ps p Hs L).
    rewrite (Rabs_right (phi g r p + phi g l p + (velocity r d - velocity l d))) by lra. apply Rabs_le. lra.
Qed.
End Pressure.
