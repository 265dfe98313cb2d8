(** Lemmas for C131 and C130: when the exact solver throws; the state of the outflow. *)
From Coq Require Import List Reals ZArith Bool Lia Lra Psatz.
From Verif Require Import GasModel GasSpec GasProofs NewtonModel RiemannModel RiemannSpec RiemannProofs RiemannProofs2 RiemannProofs3 RiemannProofs4 RiemannProperties.
From Verif Require Import BoundaryModel TurbineModel TurbineSpec TurbineProofs2.
Import ListNotations.
Local Open Scope R_scope.

Section Exact.
Variables (g : gas) (l : Complete) (d : nat).
Hypothesis Hg : perfect g.
Hypothesis Hl : admissible g l.
Hypothesis Hd : (d < length (momentum l))%nat.

Lemma solve_exact_form bisect m area :
  SolveExact bisect g l m area d =
  match FindLowerAndUpperBounds (delta_rhou (the_data g l d (m / area))) (pressure l) with
  | None => Throws
  | Some (a, b) =>
    let '(lo, hi) := bisect (delta_rhou (the_data g l d (m / area))) a b in
    Ghost (from_prim g (rho_star (the_data g l d (m / area)) (lo + 1 / 2 * (hi - lo)))
             (u_star (the_data g l d (m / area)) (lo + 1 / 2 * (hi - lo))) (lo + 1 / 2 * (hi - lo)) l d)
  end.
Proof.
  unfold SolveExact, PrimFromComplete. cbn [p_velocity p_density p_pressure]. cbv zeta. rewrite nth_velocity. cbn [pL].
  fold (the_data g l d (m / area)).
  destruct (FindLowerAndUpperBounds _ _) as [[a b]|]; [|reflexivity].
  destruct (bisect _ a b) as [lo hi]. rewrite set_prim. reflexivity.
Qed.

Lemma solve_exact_ghost bisect m area q : bracketing bisect -> SolveExact bisect g l m area d = Ghost q ->
  exists lo hi, 0 < lo /\ lo <= hi /\
    (forall eps, precise eps bisect -> hi - lo <= eps * (4095 * pressure l)) /\
    delta_rhou (the_data g l d (m / area)) lo * delta_rhou (the_data g l d (m / area)) hi <= 0 /\
    q = behind g l d (m / area) (lo + 1 / 2 * (hi - lo)).
Proof.
  intros HB. rewrite solve_exact_form. set (D := the_data g l d (m / area)).
  destruct (FindLowerAndUpperBounds (delta_rhou D) (pressure l)) as [[a b]|] eqn:E; [|discriminate].
  destruct (bounds_spec _ _ _ _ (proj1 (proj2 Hl)) E) as (B1 & B2 & B3 & B4).
  destruct (HB (delta_rhou D) a b B2 B3) as (C1 & C2 & C3 & C4).
  assert (forall eps, precise eps bisect -> snd (bisect (delta_rhou D) a b) - fst (bisect (delta_rhou D) a b) <= eps * (4095 * pressure l)) as PR.
  { intros eps [_ Hp]. specialize (Hp (delta_rhou D) a b B2 B3).
    destruct (Rle_dec 0 eps) as [Pe|Ne].
    - apply Rle_trans with (1 := Hp). apply Rmult_le_compat_l; lra.
    - assert (eps * (b - a) < 0) by nra. lra. }
  destruct (bisect (delta_rhou D) a b) as [lo hi]. cbn [fst snd] in *.
  intros H. injection H as <-. exists lo, hi. split; [lra|]. split; [exact C2|]. split; [exact PR|]. split; [exact C4|].
  apply ghost_behind; auto. lra.
Qed.

(** More than the gas could deliver by expanding into the vacuum. *)
Lemma solve_exact_throws bisect m area : 0 <= m / area ->
  density l * (speed l d + 2 / (gamma g - 1) * speed_of_sound l) < m / area -> SolveExact bisect g l m area d = Throws.
Proof.
  intros Hm H. rewrite solve_exact_form. set (D := the_data g l d (m / area)).
  destruct (side_facts g l Hg Hl) as (G & Hr & Hp & Ha & He).
  assert (forall p, 0 < p <= pressure l -> delta_rhou D p < 0) as A.
  { intros p Hp'. unfold D. rewrite delta_flow by lra. fold D. pose proof (u_star_phi g l d (m / area) Hg Hl p ltac:(lra)) as U. fold D in U.
    change (velocity l d) with (speed l d) in U. pose proof (phi_above g l Hg Hl p ltac:(lra)) as Ph.
    assert (0 < rho_star D p <= density l) as [R1 R2].
    { assert (0 < p / pressure l <= 1) as Q.
      { split; [apply Rdiv_lt_0_compat; lra|]. apply (Rmult_le_reg_r (pressure l)); [exact Hp|]. unfold Rdiv. rewrite Rmult_assoc, Rinv_l; lra. }
      unfold D. rewrite rho_star_density by (auto; lra). unfold behind, left_middle. destruct (Rlt_dec (pressure l) p); [lra|].
      unfold rarefied. rewrite prim_density.
      assert (0 < Rpower (p / pressure l) (1 / gamma g) <= 1) as [R1 R2].
      { split; [apply Rpower_pos|]. rewrite <- (Rpower_base_1 (1 / gamma g)) at 2. apply Rle_Rpower_l; [|lra].
        apply Rlt_le, Rdiv_lt_0_compat; lra. }
      split; [apply Rmult_lt_0_compat; lra|]. rewrite <- (Rmult_1_r (density l)) at 2. apply Rmult_le_compat_l; lra. }
    set (um := speed l d + 2 / (gamma g - 1) * speed_of_sound l) in *.
    assert (u_star D p < um) by (unfold um; lra).
    destruct (Rle_dec 0 (u_star D p)) as [Pu|Nu].
    - assert (rho_star D p * u_star D p <= density l * um) by (apply Rmult_le_compat; lra). lra.
    - assert (rho_star D p * u_star D p < 0) by nra. lra. }
  unfold FindLowerAndUpperBounds. destruct (Rlt_dec (delta_rhou D (pressure l)) 0) as [_|N]; [|exfalso; apply N, A; lra].
  rewrite (find_lower_none _ _ _ Hp) by (intros y Hy; apply A; lra). reflexivity.
Qed.

(** A smaller mass flow. *)
Lemma solve_exact_succeeds bisect m area : 0 <= m / area <= density l * speed l d ->
  speed l d * speed l d * (gamma g * (gamma g + 1)) <= 8000 * (speed_of_sound l * speed_of_sound l) ->
  exists q, SolveExact bisect g l m area d = Ghost q.
Proof.
  intros Hm HM. rewrite solve_exact_form. set (D := the_data g l d (m / area)).
  destruct (side_facts g l Hg Hl) as (G & Hr & Hp & Ha & He).
  assert (exists ab, FindLowerAndUpperBounds (delta_rhou D) (pressure l) = Some ab) as [[a b] ->].
  2:{ destruct (bisect (delta_rhou D) a b). eexists. reflexivity. }
  unfold FindLowerAndUpperBounds.
  assert (delta_rhou D (pressure l) = density l * speed l d - m / area) as E0.
  { unfold D. rewrite delta_flow by exact Hp. fold D. pose proof (u_star_phi g l d (m / area) Hg Hl (pressure l) Hp) as U. fold D in U.
    rewrite U, (phi_p0 g l Hg Hl). change (velocity l d) with (speed l d).
    unfold D. rewrite rho_star_density by auto. unfold behind, left_middle. destruct (Rlt_dec (pressure l) (pressure l)); [lra|].
    unfold rarefied. rewrite prim_density. replace (pressure l / pressure l) with 1 by (field; lra). rewrite Rpower_base_1. ring. }
  destruct (Rlt_dec (delta_rhou D (pressure l)) 0) as [L|_]; [lra|].
  set (P := pressure l * 2 ^ 12). assert (P = 4096 * pressure l) as EP by (unfold P; ring).
  destruct (find_upper_some (delta_rhou D) 11 (pressure l) Hp) as (y & ->); [|eexists; reflexivity].
  fold P. unfold D. rewrite delta_flow by lra. fold D. pose proof (u_star_phi g l d (m / area) Hg Hl P ltac:(lra)) as U. fold D in U.
  change (velocity l d) with (speed l d) in U.
  assert (0 < rho_star D P) as RP.
  { unfold D. rewrite rho_star_density by (auto; lra). apply (behind_facts g l d (m / area) Hg Hl Hd P ltac:(lra)). }
  rewrite (phi_shock g l Hg Hl P) in U by lra. destruct (massflow_spec g l Hg Hl P ltac:(lra)) as [J JJ].
  assert (speed l d <= (P - pressure l) / massflow g l P) as F.
  { destruct (Rle_dec (speed l d) 0) as [Nu|Pu]; [apply Rle_trans with (1 := Nu); apply Rlt_le, Rdiv_lt_0_compat; lra|].
    apply (Rmult_le_reg_r (massflow g l P)); [exact J|]. unfold Rdiv at 1. rewrite Rmult_assoc, Rinv_l by lra.
    rewrite Rmult_1_r. apply Rsqr_incr_0_var; [|lra]. unfold Rsqr.
    replace (speed l d * massflow g l P * (speed l d * massflow g l P)) with (speed l d * speed l d * (massflow g l P * massflow g l P)) by ring.
    rewrite JJ, EP. set (u2 := speed l d * speed l d) in *.
    assert (0 <= u2) by (unfold u2; nra).
    assert (density l * (u2 * (gamma g * (gamma g + 1))) <= 8000 * (gamma g * pressure l)) as K.
    { rewrite <- He. apply Rle_trans with (density l * (8000 * (speed_of_sound l * speed_of_sound l))); [apply Rmult_le_compat_l; lra | lra]. }
    assert (density l * u2 * (gamma g + 1) <= 8000 * pressure l) as K'.
    { apply (Rmult_le_reg_l (gamma g)); [lra|]. lra. }
    replace (u2 * (density l * ((gamma g + 1) * (4096 * pressure l) + (gamma g - 1) * pressure l) / 2))
      with ((density l * u2 * (gamma g + 1)) * (4096 / 2 * pressure l) + density l * u2 * (gamma g - 1) * (1 / 2 * pressure l)) by field.
    assert (0 <= density l * u2) as Z by (apply Rmult_le_pos; lra).
    assert (density l * u2 * (gamma g - 1) <= 8000 * pressure l) as K2.
    { apply Rle_trans with (2 := K'). apply Rmult_le_compat_l; lra. }
    apply Rle_trans with (8000 * pressure l * (4096 / 2 * pressure l) + 8000 * pressure l * (1 / 2 * pressure l)).
    - apply Rplus_le_compat; apply Rmult_le_compat_r; lra.
    - assert (0 < pressure l * pressure l) by (apply Rmult_lt_0_compat; lra). lra. }
  assert (u_star D P <= 0) by lra.
  assert (0 <= rho_star D P * - u_star D P) by (apply Rmult_le_pos; lra). lra.
Qed.
End Exact.

(** ** A mass flow which the search for the bounds misses *)

Definition laval_speed : R := 4 / 5 * sqrt (7 / 5).
Definition missed : R := (19 / 20) ^ 5 * (21 / 20 * sqrt (7 / 5)).

Lemma air_flow m s : 0 < s < 1 ->
  delta_rhou (the_data air (moving laval_speed) 0 m) (s ^ 7) = sqrt (7 / 5) * (s ^ 5 * (29 / 5 - 5 * s)) - m.
Proof.
  intros Hs. assert (0 < s ^ 7 < 1) as H7.
  { split; [apply pow_lt; lra|]. cbn [pow]. assert (s * s < 1) by nra. assert (0 < s * s) by nra. assert (s * (s * s) < 1) by nra.
    assert (0 < s * (s * s)) by nra. assert (s * (s * (s * s)) < 1) by nra. assert (0 < s * (s * (s * s))) by nra.
    assert (s * (s * (s * (s * s))) < 1) by nra. assert (0 < s * (s * (s * (s * s)))) by nra.
    assert (s * (s * (s * (s * (s * s)))) < 1) by nra. assert (0 < s * (s * (s * (s * (s * s))))) by nra. nra. }
  unfold delta_rhou, rho_rarefaction, u_rarefaction, f_rarefaction, the_data. cbn [rhoL uL pL aL dgamma rhou_star air moving pressure density gamma speed_of_sound]. cbv zeta.
  destruct (Rlt_dec (s ^ 7) 1) as [_|N]; [|lra].
  replace (s ^ 7 / 1) with (s ^ 7) by field.
  rewrite <- (Rpower_pow 7 s) by lra. rewrite !Rpower_mult.
  replace (INR 7 * (1 / (7 / 5))) with (INR 5) by (cbn [INR]; field).
  replace (INR 7 * ((7 / 5 - 1) / 2 / (7 / 5))) with 1 by (cbn [INR]; field).
  rewrite Rpower_1, Rpower_pow by lra. unfold speed, laval_speed. cbn [momentum moving density nth]. field.
Qed.

Lemma missed_root : delta_rhou (the_data air (moving laval_speed) 0 missed) ((19 / 20) ^ 7) = 0.
Proof. rewrite air_flow by lra. unfold missed. field. Qed.

Lemma missed_flow s : 0 < s < 19 / 20 -> s ^ 5 * (29 / 5 - 5 * s) < (19 / 20) ^ 5 * (21 / 20).
Proof.
  intros Hs. set (t := 19 / 20). assert (t = 19 / 20) as Et by reflexivity. assert (21 / 20 = 29 / 5 - 5 * t) as -> by (rewrite Et; lra).
  assert (0 < (t - s) * ((29 / 5 - 5 * t) * (t ^ 4 + t ^ 3 * s + t ^ 2 * s ^ 2 + t * s ^ 3 + s ^ 4) - 5 * s ^ 5)) as K.
  2:{ assert (t ^ 5 * (29 / 5 - 5 * t) - s ^ 5 * (29 / 5 - 5 * s) =
              (t - s) * ((29 / 5 - 5 * t) * (t ^ 4 + t ^ 3 * s + t ^ 2 * s ^ 2 + t * s ^ 3 + s ^ 4) - 5 * s ^ 5)) by ring. lra. }
  apply Rmult_lt_0_compat; [lra|].
  assert (0 < s ^ 4) as S4 by (apply pow_lt; lra).
  assert (s ^ 5 <= s ^ 4) by (replace (s ^ 5) with (s * s ^ 4) by ring; rewrite <- (Rmult_1_l (s ^ 4)) at 2; apply Rmult_le_compat_r; lra).
  assert (forall k, (k <= 4)%nat -> s ^ 4 <= t ^ (4 - k) * s ^ k) as Q.
  { intros k Hk. replace 4%nat with ((4 - k) + k)%nat at 1 by lia. rewrite pow_add. apply Rmult_le_compat_r; [apply pow_le; lra|].
    apply pow_incr. lra. }
  pose proof (Q 0%nat ltac:(lia)) as Q0. pose proof (Q 1%nat ltac:(lia)) as Q1. pose proof (Q 2%nat ltac:(lia)) as Q2.
  pose proof (Q 3%nat ltac:(lia)) as Q3. cbn [Nat.sub pow] in Q0, Q1, Q2, Q3. 
  assert (29 / 5 - 5 * t = 21 / 20) as -> by (rewrite Et; lra). clearbody t.
  cbn [pow] in *. rewrite !Rmult_1_r in *. lra.
Qed.

Lemma missed_lower y : 0 < y <= 1 / 2 -> delta_rhou (the_data air (moving laval_speed) 0 missed) y < 0.
Proof.
  intros Hy. set (s := Rpower y (1 / 7)). assert (0 < s) as Ps by apply Rpower_pos.
  assert (s ^ 7 = y) as E.
  { rewrite <- Rpower_pow by exact Ps. unfold s. rewrite Rpower_mult. replace (1 / 7 * INR 7) with 1 by (cbn [INR]; field). apply Rpower_1. lra. }
  assert (s < 19 / 20) as Ls.
  { destruct (Rlt_dec s (19 / 20)) as [L|L]; [exact L|]. assert ((19 / 20) ^ 7 <= s ^ 7) by (apply pow_incr; lra). lra. }
  rewrite <- E, air_flow by lra. pose proof (missed_flow s (conj Ps Ls)) as M.
  assert (0 < sqrt (7 / 5)) as S by (apply sqrt_lt_R0; lra). unfold missed.
  assert (sqrt (7 / 5) * (s ^ 5 * (29 / 5 - 5 * s)) < sqrt (7 / 5) * ((19 / 20) ^ 5 * (21 / 20))) by (apply Rmult_lt_compat_l; assumption). lra.
Qed.

Lemma missed_throws bisect : SolveExact bisect air (moving laval_speed) missed 1 0 = Throws.
Proof.
  rewrite solve_exact_form. replace (missed / 1) with missed by field. cbn [pressure moving].
  assert (0 < sqrt (7 / 5)) as S by (apply sqrt_lt_R0; lra).
  unfold FindLowerAndUpperBounds.
  assert (delta_rhou (the_data air (moving laval_speed) 0 missed) 1 < 0) as N.
  { unfold delta_rhou, rho_shock, u_shock, f_shock, the_data. cbn [rhoL uL pL aL dgamma rhou_star air moving pressure density gamma speed_of_sound]. cbv zeta.
    destruct (Rlt_dec 1 1); [lra|]. unfold speed, laval_speed, missed. cbn [momentum moving density nth].
    set (z := sqrt (2 / ((7 / 5 + 1) * 1) / (1 + 1 * ((7 / 5 - 1) / (7 / 5 + 1))))).
    assert (1 * (((7 / 5 - 1) / (7 / 5 + 1) + 1 / 1) / ((7 / 5 - 1) / (7 / 5 + 1) * (1 / 1) + 1)) = 1) as -> by field. lra. }
  destruct (Rlt_dec _ 0) as [_|C]; [|contradiction].
  rewrite find_lower_none; [reflexivity | lra |]. intros y Hy. apply missed_lower. lra.
Qed.

(** ** A concrete root finder: one step of the bisection *)
Definition one_step (f : R -> R) (a b : R) : R * R := if Rle_dec (f a * f ((a + b) / 2)) 0 then (a, (a + b) / 2) else ((a + b) / 2, b).
Fixpoint bisection (n : nat) (f : R -> R) (a b : R) : R * R :=
  match n with O => (a, b) | S n => let '(lo, hi) := one_step f a b in bisection n f lo hi end.

Lemma bisection_precise n : precise ((/ 2) ^ n) (bisection n).
Proof.
  assert (forall f a b, a <= b -> f a * f b <= 0 ->
    a <= fst (bisection n f a b) /\ fst (bisection n f a b) <= snd (bisection n f a b) /\ snd (bisection n f a b) <= b /\
    f (fst (bisection n f a b)) * f (snd (bisection n f a b)) <= 0 /\
    snd (bisection n f a b) - fst (bisection n f a b) <= (/ 2) ^ n * (b - a)) as A.
  { induction n as [|n IH]; intros f a b L S; cbn [bisection].
    - cbn [fst snd pow]. repeat split; lra.
    - unfold one_step. set (c := (a + b) / 2). assert (a <= c <= b) as Hc by (unfold c; lra).
      assert (c - a = / 2 * (b - a) /\ b - c = / 2 * (b - a)) as [W1 W2] by (unfold c; split; field).
      destruct (Rle_dec (f a * f c) 0) as [N|N].
      + destruct (IH f a c ltac:(lra) N) as (I1 & I2 & I3 & I4 & I5). repeat split; auto; try lra.
        rewrite W1 in I5. cbn [pow]. lra.
      + assert (f c * f b <= 0) as N'.
        { destruct (Rle_dec (f c * f b) 0) as [Y|Y]; [exact Y|]. exfalso.
          assert (0 < (f a * f c) * (f c * f b)) as T by (apply Rmult_lt_0_compat; lra).
          replace (f a * f c * (f c * f b)) with ((f a * f b) * (f c * f c)) in T by ring.
          assert (0 <= f c * f c) by (apply Rle_0_sqr). nra. }
        destruct (IH f c b ltac:(lra) N') as (I1 & I2 & I3 & I4 & I5). repeat split; auto; try lra.
        rewrite W2 in I5. cbn [pow]. lra. }
  split; intros f a b L S; destruct (A f a b ltac:(lra) S) as (I1 & I2 & I3 & I4 & I5); auto.
Qed.
