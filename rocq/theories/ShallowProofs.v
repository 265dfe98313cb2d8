(** Lemmas for C79-C82: shocks and rarefactions at one side. *)
From Coq Require Import List Reals Lia Lra Psatz Bool.
From Verif Require Import NewtonModel ShallowModel ShallowSpec.
Import ListNotations.
Local Open Scope R_scope.

(** ** States by height and velocities *)

Definition prim (d : bool) (h u v : R) : water := make d h (h * u) (h * v).

Lemma make_height d h m t : height (make d h m t) = h.
Proof. reflexivity. Qed.
Lemma make_along d h m t : along d (make d h m t) = m.
Proof. destruct d; reflexivity. Qed.
Lemma make_across d h m t : across d (make d h m t) = t.
Proof. destruct d; reflexivity. Qed.
Lemma make_self d q : make d (height q) (along d q) (across d q) = q.
Proof. destruct q as [h [m t]]. destruct d; reflexivity. Qed.

Definition cross_speed (d : bool) (q : water) : R := across d q / height q.

Lemma prim_self d q : 0 < height q -> prim d (height q) (speed_of d q) (cross_speed d q) = q.
Proof.
  intros H. unfold prim, speed_of, cross_speed. transitivity (make d (height q) (along d q) (across d q)); [f_equal; field; lra | apply make_self].
Qed.

Lemma prim_height d h u v : height (prim d h u v) = h.
Proof. reflexivity. Qed.
Lemma prim_speed d h u v : 0 < h -> speed_of d (prim d h u v) = u.
Proof. intros H. unfold speed_of, prim. rewrite make_along, make_height. field. lra. Qed.

Lemma amount_prim d c h u v : amount d c (prim d h u v) = match c with Water => h | Along => h * u | Across => h * v end.
Proof. unfold prim. destruct c; cbn [amount]; [apply make_height | apply make_along | apply make_across]. Qed.

Lemma transport_prim g d c h u v : transport g d c (prim d h u v) =
  match c with Water => h * u | Along => h * (u * u) + 1 / 2 * g * (h * h) | Across => h * (u * v) end.
Proof.
  unfold prim. destruct c; cbn [transport]; rewrite ?make_height, ?make_along, ?make_across; [reflexivity| |].
  - destruct (Req_dec h 0) as [-> | N]; [unfold Rdiv; ring | field; exact N].
  - destruct (Req_dec h 0) as [-> | N]; [unfold Rdiv; ring | field; exact N].
Qed.

Lemma mechanical_prim g d h u v : 0 < h -> mechanical g d (prim d h u v) = 1 / 2 * h * (u * u + v * v) + 1 / 2 * g * (h * h).
Proof. intros H. unfold mechanical, prim. rewrite make_height, make_along, make_across. field. lra. Qed.

Lemma mechanical_flux_prim g d h u v : 0 < h ->
  mechanical_flux g d (prim d h u v) = (1 / 2 * h * (u * u + v * v) + g * (h * h)) * u.
Proof. intros H. unfold mechanical_flux, prim. rewrite make_height, make_along, make_across. field. lra. Qed.

Lemma smooth_solution g d (h u : R -> R) v x h' u' :
  derivable_pt_lim h x h' -> derivable_pt_lim u x u' ->
  h' * (u x - x) + h x * u' = 0 -> u' * (u x - x) + g * h' = 0 ->
  conserved_at g d (fun y => prim d (h y) (u y) v) x.
Proof.
  intros Dh Du E1 E2 c.
  assert (derivable_pt_lim (fun y => h y * u y) x (h' * u x + h x * u')) as Dm by (apply (derivable_pt_lim_mult h u); auto).
  destruct c.
  - exists h', (h' * u x + h x * u'). split; [|split].
    + exact Dh.
    + apply derivable_pt_lim_ext with (fun y => h y * u y); [intros y; rewrite transport_prim; reflexivity|exact Dm].
    + lra.
  - exists (h' * u x + h x * u'), (h' * (u x * u x) + h x * (u' * u x + u x * u') + 1 / 2 * g * (h' * h x + h x * h')). split; [|split].
    + apply derivable_pt_lim_ext with (fun y => h y * u y); [intros y; rewrite amount_prim; reflexivity|exact Dm].
    + apply derivable_pt_lim_ext with (fun y => h y * (u y * u y) + 1 / 2 * g * (h y * h y)); [intros y; rewrite transport_prim; reflexivity|].
      apply (derivable_pt_lim_plus (fun y => h y * (u y * u y)) (fun y => 1 / 2 * g * (h y * h y))).
      * apply (derivable_pt_lim_mult h (fun y => u y * u y)); [exact Dh|]. apply (derivable_pt_lim_mult u u); exact Du.
      * apply (derivable_pt_lim_scal (fun y => h y * h y)). apply (derivable_pt_lim_mult h h); exact Dh.
    + apply Rminus_diag_uniq.
      match goal with |- ?l = 0 => replace l with (u x * (h' * (u x - x) + h x * u') + h x * (u' * (u x - x) + g * h')) by field end.
      rewrite E1, E2. ring.
  - exists (h' * v), ((h' * u x + h x * u') * v). split; [|split].
    + apply derivable_pt_lim_ext with (fun y => v * h y); [intros y; rewrite amount_prim; ring|].
      rewrite Rmult_comm. apply (derivable_pt_lim_scal h). exact Dh.
    + apply derivable_pt_lim_ext with (fun y => v * (h y * u y)); [intros y; rewrite transport_prim; ring|].
      rewrite Rmult_comm. apply (derivable_pt_lim_scal (fun y => h y * u y)). exact Dm.
    + replace (h' * u x + h x * u') with (x * h') by lra. ring.
Qed.

Lemma constant_solution g d h u v x : conserved_at g d (fun _ => prim d h u v) x.
Proof.
  apply (smooth_solution g d (fun _ => h) (fun _ => u) v x 0 0); try apply derivable_pt_lim_const; ring.
Qed.

Lemma constant_state g d q x : 0 < height q -> conserved_at g d (fun _ => q) x.
Proof. intros H. rewrite <- (prim_self d q H). apply constant_solution. Qed.

(** ** The wave between a side and the middle state *)

(** velocity difference over the wave, for positive heights *)
Definition psi (g : R) (q : water) (h : R) : R :=
  if Rlt_dec h (height q) then 2 * (sqrt (g * h) - sqrt (g * height q))
  else (h - height q) * sqrt (1 / 2 * g * (1 / h + 1 / height q)).

Section Side.
Variables (g : R) (q : water) (d : bool) (s : R).
Hypothesis Hg : 0 < g.
Hypothesis Hq : 0 < height q.
Hypothesis Hs : s = 1 \/ s = -1.

Let h0 := height q.
Let u0 := speed_of d q.
Let v0 := cross_speed d q.
Let a0 := sqrt (g * height q).

Lemma ss : s * s = 1.
Proof. destruct Hs as [-> | ->]; ring. Qed.

Lemma sound_facts : 0 < a0 /\ a0 * a0 = g * h0.
Proof.
  assert (0 < g * height q) by (apply Rmult_lt_0_compat; auto).
  split; [apply sqrt_lt_R0; assumption|]. apply sqrt_sqrt. apply Rlt_le. assumption.
Qed.

Lemma shock_root_positive h : 0 < h -> 0 < 1 / 2 * g * (1 / h + 1 / h0).
Proof.
  intros H. assert (0 < 1 / h) by (apply Rdiv_lt_0_compat; lra). assert (0 < 1 / h0) by (apply Rdiv_lt_0_compat; [lra|exact Hq]).
  apply Rmult_lt_0_compat; lra.
Qed.

Lemma f_side_psi h : 0 < h -> f_side g d q s h = Fin (u0 - s * psi g q h).
Proof.
  intros H. unfold f_side, psi. fold u0 h0. destruct (Rlt_dec h h0) as [L|L].
  - unfold dsqrt. destruct (Rlt_dec (g * h) 0) as [N|N]; [exfalso; assert (0 < g * h) by (apply Rmult_lt_0_compat; lra); lra|].
    cbn [daffine]. f_equal. ring.
  - unfold dsqrt. pose proof (shock_root_positive h H). fold h0. destruct (Rlt_dec (1 / 2 * g * (1 / h + 1 / h0)) 0); [lra|].
    cbn [daffine]. f_equal. ring.
Qed.

(** *** Shocks *)

Definition shock_speed (hM uM : R) : R := (hM * uM - height q * speed_of d q) / (hM - height q).
Definition middle_of (hM uM : R) : water := prim d hM uM (cross_speed d q).

Lemma shock_relative hM uM : h0 < hM -> uM = u0 - s * psi g q hM ->
  exists k, 0 < k /\ k * k = 1 / 2 * g * (1 / hM + 1 / h0) /\ uM - u0 = - s * (hM - h0) * k /\
    u0 - shock_speed hM uM = s * hM * k /\ uM - shock_speed hM uM = s * h0 * k.
Proof.
  intros H Hu. exists (sqrt (1 / 2 * g * (1 / hM + 1 / h0))).
  assert (0 < hM) as HM by (unfold h0 in *; lra). pose proof (shock_root_positive hM HM) as P.
  split; [apply sqrt_lt_R0; exact P|]. split; [apply sqrt_sqrt; lra|].
  unfold psi in Hu. fold h0 in Hu. destruct (Rlt_dec hM h0); [lra|].
  set (k := sqrt (1 / 2 * g * (1 / hM + 1 / h0))) in *. clearbody k.
  assert (uM - u0 = - s * (hM - h0) * k) as E by (rewrite Hu; ring). split; [exact E|].
  unfold shock_speed. fold h0 u0. replace uM with (u0 + (uM - u0)) by ring. rewrite E.
  split; field; lra.
Qed.

Lemma shock_jump hM uM : h0 < hM -> uM = u0 - s * psi g q hM ->
  forall c, transport g d c (middle_of hM uM) - transport g d c q = shock_speed hM uM * (amount d c (middle_of hM uM) - amount d c q).
Proof.
  intros H Hu c. destruct (shock_relative hM uM H Hu) as (k & K & KK & E0 & E1 & E2).
  assert (0 < hM) as HM by (unfold h0 in *; lra).
  pose proof (prim_self d q Hq) as Q. fold h0 u0 v0 in Q.
  assert (transport g d c q = transport g d c (prim d h0 u0 v0)) as -> by (rewrite Q; reflexivity).
  assert (amount d c q = amount d c (prim d h0 u0 v0)) as -> by (rewrite Q; reflexivity).
  unfold middle_of. fold v0. rewrite !transport_prim, !amount_prim.
  set (S := shock_speed hM uM) in *. clearbody S.
  assert (0 < h0) as H0 by exact Hq.
  assert (u0 = S + s * hM * k) as -> by lra. assert (uM = S + s * h0 * k) as -> by lra. pose proof ss as Hss.
  clear Hu E0 E1 E2.
  destruct c.
  - ring.
  - apply Rminus_diag_uniq.
    match goal with |- ?l = 0 => replace l with (hM * h0 * (h0 - hM) * (s * s * (k * k)) + 1 / 2 * g * (hM * hM - h0 * h0)) by ring end.
    rewrite Hss, KK. field. lra.
  - ring.
Qed.

Lemma shock_dissipates hM uM : h0 < hM -> uM = u0 - s * psi g q hM ->
  s * (mechanical_flux g d (middle_of hM uM) - mechanical_flux g d q -
       shock_speed hM uM * (mechanical g d (middle_of hM uM) - mechanical g d q)) <= 0.
Proof.
  intros H Hu. destruct (shock_relative hM uM H Hu) as (k & K & KK & E0 & E1 & E2).
  assert (0 < hM) as HM by (unfold h0 in *; lra). assert (0 < h0) as H0 by exact Hq.
  pose proof (prim_self d q Hq) as Q. fold h0 u0 v0 in Q. unfold middle_of. fold v0.
  assert (mechanical_flux g d q = mechanical_flux g d (prim d h0 u0 v0)) as -> by (rewrite Q; reflexivity).
  assert (mechanical g d q = mechanical g d (prim d h0 u0 v0)) as -> by (rewrite Q; reflexivity).
  rewrite !mechanical_flux_prim, !mechanical_prim by assumption.
  replace (shock_speed hM uM) with (uM - s * h0 * k) by lra.
  assert (u0 = uM - s * h0 * k + s * hM * k) as -> by lra. pose proof ss as Hss. clear Hu E0 E1 E2 Q.
  match goal with |- ?l <= 0 => replace l with (- (k * g * ((hM - h0) * ((hM - h0) * (hM - h0))) / 4)) end.
  - assert (0 < k * g * ((hM - h0) * ((hM - h0) * (hM - h0))) / 4); [|lra].
    apply Rmult_lt_0_compat; [|lra]. repeat apply Rmult_lt_0_compat; lra.
  - assert (g = 2 * (k * k) * (hM * h0) / (h0 + hM)) as G.
    { rewrite KK. field. lra. }
    rewrite G. clear G KK. destruct Hs as [-> | ->]; field; lra.
Qed.

Lemma shock_before hM uM : h0 < hM -> uM = u0 - s * psi g q hM -> s * shock_speed hM uM < s * uM.
Proof.
  intros H Hu. destruct (shock_relative hM uM H Hu) as (k & K & KK & E0 & E1 & E2). pose proof ss as Hss.
  assert (0 < h0) as H0 by exact Hq.
  assert (s * (uM - shock_speed hM uM) = h0 * k) as E by (rewrite E2; replace (s * (s * h0 * k)) with (s * s * h0 * k) by ring; rewrite Hss; ring).
  assert (0 < h0 * k) by (apply Rmult_lt_0_compat; lra). lra.
Qed.

(** *** Rarefactions *)

(** wave speed, height and velocity inside of the fan *)
Definition fan_sound (x : R) : R := s * (speed_of d q + s * (2 * sqrt (g * height q)) - x) / 3.
Definition fan_height (x : R) : R := fan_sound x * fan_sound x / g.
Definition fan_speed (x : R) : R := x + s * fan_sound x.
Definition fan (x : R) : water := prim d (fan_height x) (fan_speed x) (cross_speed d q).

Lemma fan_sound_derivable x : derivable_pt_lim fan_sound x (- s / 3).
Proof.
  apply derivable_pt_lim_ext with (fun y => s * (u0 + s * (2 * a0)) / 3 + - s / 3 * y).
  - intros y. unfold fan_sound. fold u0 a0. field.
  - pose proof (derivable_pt_lim_plus (fun _ => s * (u0 + s * (2 * a0)) / 3) (fun y => - s / 3 * y) x 0 (- s / 3 * 1)
      (derivable_pt_lim_const _ _) (derivable_pt_lim_scal id _ _ _ (derivable_pt_lim_id x))) as D.
    rewrite Rmult_1_r, Rplus_0_l in D. exact D.
Qed.

Lemma fan_smooth x : conserved_at g d fan x.
Proof.
  pose proof ss as Hss. pose proof (fan_sound_derivable x) as D.
  apply (smooth_solution g d fan_height fan_speed v0 x (2 * (- s / 3) * fan_sound x / g) (2 / 3)).
  - apply derivable_pt_lim_ext with (fun y => / g * (fan_sound y * fan_sound y)); [intros y; unfold fan_height; field; lra|].
    replace (2 * (- s / 3) * fan_sound x / g) with (/ g * (- s / 3 * fan_sound x + fan_sound x * (- s / 3))) by (field; lra).
    apply (derivable_pt_lim_scal (fun y => fan_sound y * fan_sound y)). apply (derivable_pt_lim_mult fan_sound fan_sound); exact D.
  - replace (2 / 3) with (1 + s * (- s / 3)) by (replace (s * (- s / 3)) with (- (s * s) / 3) by field; rewrite Hss; field).
    apply (derivable_pt_lim_plus id (fun y => s * fan_sound y)); [apply derivable_pt_lim_id|].
    apply (derivable_pt_lim_scal fan_sound). exact D.
  - unfold fan_speed, fan_height. replace (x + s * fan_sound x - x) with (s * fan_sound x) by ring.
    replace (2 * (- s / 3) * fan_sound x / g * (s * fan_sound x) + fan_sound x * fan_sound x / g * (2 / 3))
      with (2 / 3 * (fan_sound x * fan_sound x / g) * (1 - s * s)) by (field; lra). rewrite Hss. ring.
  - unfold fan_speed. field. lra.
Qed.

Lemma fan_head : fan (u0 - s * a0) = q.
Proof.
  pose proof ss as Hss. destruct sound_facts as [A AA].
  assert (fan_sound (u0 - s * a0) = a0) as E.
  { unfold fan_sound. fold u0 a0. replace (s * (u0 + s * (2 * a0) - (u0 - s * a0)) / 3) with (s * s * a0) by field. rewrite Hss. ring. }
  unfold fan, fan_height, fan_speed. rewrite E. rewrite AA. replace (g * h0 / g) with h0 by (field; lra).
  replace (u0 - s * a0 + s * a0) with u0 by ring. apply prim_self. exact Hq.
Qed.

Lemma psi_rarefaction hM : 0 < hM <= h0 -> psi g q hM = 2 * (sqrt (g * hM) - a0).
Proof.
  intros H. unfold psi. fold h0. destruct (Rlt_dec hM h0) as [L|L]; [reflexivity|].
  assert (hM = h0) as -> by lra. unfold a0. fold h0. ring.
Qed.

Lemma tail_sound hM uM : 0 < hM <= h0 -> uM = u0 - s * psi g q hM -> fan_sound (uM - s * sqrt (g * hM)) = sqrt (g * hM).
Proof.
  intros H Hu. pose proof ss as Hss. rewrite psi_rarefaction in Hu by exact H. rewrite Hu. unfold fan_sound. fold u0 a0.
  set (b := sqrt (g * hM)). replace (s * (u0 + s * (2 * a0) - (u0 - s * (2 * (b - a0)) - s * b)) / 3) with (s * s * b) by field.
  rewrite Hss. ring.
Qed.

Lemma fan_tail hM uM : 0 < hM <= h0 -> uM = u0 - s * psi g q hM -> fan (uM - s * sqrt (g * hM)) = middle_of hM uM.
Proof.
  intros H Hu. unfold fan, fan_height, fan_speed, middle_of. rewrite (tail_sound hM uM H Hu).
  assert (0 < g * hM) by (apply Rmult_lt_0_compat; lra). rewrite sqrt_sqrt by lra. f_equal; [field; lra | ring].
Qed.

Lemma fan_sound_between hM uM x : 0 < hM <= h0 -> uM = u0 - s * psi g q hM ->
  s * x <= s * (uM - s * sqrt (g * hM)) -> sqrt (g * hM) <= fan_sound x.
Proof.
  intros H Hu Hx. rewrite <- (tail_sound hM uM H Hu). set (t := uM - s * sqrt (g * hM)) in *. clearbody t.
  unfold fan_sound. fold u0 a0. lra.
Qed.

Lemma fan_height_positive hM uM x : 0 < hM <= h0 -> uM = u0 - s * psi g q hM ->
  s * x <= s * (uM - s * sqrt (g * hM)) -> 0 < fan_height x.
Proof.
  intros H Hu Hx. pose proof (fan_sound_between hM uM x H Hu Hx) as B.
  assert (0 < sqrt (g * hM)) by (apply sqrt_lt_R0, Rmult_lt_0_compat; lra).
  apply Rdiv_lt_0_compat; [|exact Hg]. apply Rmult_lt_0_compat; lra.
Qed.

Lemma sound_monotone hM : 0 < hM <= h0 -> 0 < sqrt (g * hM) <= a0 /\ (hM < h0 -> sqrt (g * hM) < a0).
Proof.
  intros H. assert (0 < g * hM) by (apply Rmult_lt_0_compat; lra).
  assert (g * hM <= g * h0) by (apply Rmult_le_compat_l; lra).
  split; [split; [apply sqrt_lt_R0; assumption | apply sqrt_le_1_alt; assumption]|].
  intros L. apply sqrt_lt_1_alt. split; [lra|]. apply Rmult_lt_compat_l; [lra | exact L].
Qed.

Lemma head_tail hM uM : 0 < hM <= h0 -> uM = u0 - s * psi g q hM ->
  s * (u0 - s * a0) <= s * (uM - s * sqrt (g * hM)) /\
  (hM < h0 -> s * (u0 - s * a0) < s * (uM - s * sqrt (g * hM))) /\
  s * (uM - s * sqrt (g * hM)) < s * uM.
Proof.
  intros H Hu. pose proof ss as Hss. destruct (sound_monotone hM H) as [[M1 M2] M3].
  rewrite psi_rarefaction in Hu by exact H. set (b := sqrt (g * hM)) in *. clearbody b.
  replace (s * (u0 - s * a0)) with (s * u0 - s * s * a0) by ring.
  replace (s * (uM - s * b)) with (s * uM - s * s * b) by ring.
  replace (s * uM) with (s * u0 - s * s * (2 * (b - a0))) by (rewrite Hu; ring).
  rewrite Hss, !Rmult_1_l. split; [lra|]. split; [|lra]. intros L. specialize (M3 L). lra.
Qed.
End Side.
