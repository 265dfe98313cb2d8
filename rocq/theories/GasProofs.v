(** Lemmas for C33-C37. *)
From Coq Require Import List Reals Lra Lia Bool.
From Verif Require Import GasModel GasSpec.
Import ListNotations.
Local Open Scope R_scope.

Lemma dot_self v : dot v v = sum (map (fun x => x * x) v).
Proof. induction v; cbn; congruence. Qed.

Lemma dot_scale_l k a b : dot (vscale k a) b = k * dot a b.
Proof. revert b. induction a as [|x a IH]; intros [|y b]; cbn in *; try lra. rewrite IH. lra. Qed.

Lemma dot_comm a b : dot a b = dot b a.
Proof. revert b. induction a as [|x a IH]; intros [|y b]; cbn; try lra. rewrite IH. lra. Qed.

Lemma dot_sub_l a b c : length a = length b -> dot (vsub a b) c = dot a c - dot b c.
Proof.
  revert b c. unfold vsub. induction a as [|x a IH]; intros [|y b] [|z c] H; cbn in *; try discriminate; try lra.
  rewrite IH by lia. lra.
Qed.

Lemma vscale_length k a : length (vscale k a) = length a.
Proof. apply map_length. Qed.
Lemma vsub_length a b : length a = length b -> length (vsub a b) = length a.
Proof. unfold vsub. revert b. induction a as [|x a IH]; intros [|y b] H; cbn in *; try lia. rewrite IH; lia. Qed.

Lemma kinetic_energy rho m : rho <> 0 -> KineticEnergy rho m = kinetic rho (map (fun x => x / rho) m).
Proof.
  intros H. unfold KineticEnergy, kinetic, squaredNorm. rewrite dot_self, map_map.
  assert (E : sum (map (fun x => x * x) m) = rho * rho * sum (map (fun x => x / rho * (x / rho)) m)).
  { induction m as [|x m IH]; cbn; [lra|]. rewrite IH. field. exact H. }
  rewrite E. field. exact H.
Qed.

Lemma kinetic_nonneg rho v : 0 <= rho -> 0 <= kinetic rho v.
Proof.
  intros H. unfold kinetic. assert (0 <= sum (map (fun x => x * x) v)).
  { induction v as [|x v IH]; cbn; [lra|]. nra. }
  nra.
Qed.

Lemma map_div_mul rho v : rho <> 0 -> map (fun m => m / rho) (vscale rho v) = v.
Proof.
  intros H. unfold vscale. rewrite map_map. rewrite <- (map_id v) at 2. apply map_ext. intros a. field. exact H.
Qed.
Lemma map_mul_div rho m : rho <> 0 -> vscale rho (map (fun m => m / rho) m) = m.
Proof.
  intros H. unfold vscale. rewrite map_map. rewrite <- (map_id m) at 2. apply map_ext. intros a. field. exact H.
Qed.

Lemma sound_speed rho gp : 0 < rho -> 0 <= gp -> rho * (sqrt (gp / rho) * sqrt (gp / rho)) = gp.
Proof.
  intros H1 H2. rewrite sqrt_sqrt. - field. lra.
  - apply Rmult_le_pos; [lra|]. apply Rlt_le, Rinv_0_lt_compat. lra.
Qed.

Lemma perfect_div g x : perfect g -> x / gamma_minus_1_inv g = x * (gamma g - 1).
Proof.
  intros [H1 H2]. assert (gamma_minus_1_inv g <> 0) by (intros E; rewrite E in H2; lra).
  apply (Rmult_eq_reg_r (gamma_minus_1_inv g)); [|auto]. unfold Rdiv. rewrite Rmult_assoc, Rinv_l by auto.
  replace (x * (gamma g - 1) * gamma_minus_1_inv g) with (x * (gamma_minus_1_inv g * (gamma g - 1))) by ring.
  rewrite H2. ring.
Qed.
Lemma perfect_mul g x : perfect g -> x * gamma_minus_1_inv g = x / (gamma g - 1).
Proof.
  intros [H1 H2]. apply (Rmult_eq_reg_r (gamma g - 1)); [|lra]. rewrite Rmult_assoc, H2.
  unfold Rdiv. rewrite Rmult_assoc, Rinv_l by lra. ring.
Qed.

(** ** Conversions *)
Lemma from_cons_consistent g c : perfect g -> 0 < c_density c ->
  c_energy c >= kinetic (c_density c) (map (fun m => m / c_density c) (c_momentum c)) ->
  consistent g (CompleteFromCons g c).
Proof.
  intros Hg Hr He. unfold consistent, CompleteFromCons. cbn [energy density momentum pressure speed_of_sound].
  rewrite kinetic_energy by lra. rewrite perfect_div by auto. set (k := kinetic _ _) in *.
  destruct Hg as [Hg1 Hg2].
  split; [field; lra|]. split; [apply sqrt_pos|]. apply sound_speed; [lra|].
  apply Rmult_le_pos; [lra|]. apply Rmult_le_pos; lra.
Qed.

Lemma from_prim_consistent g w : perfect g -> 0 < p_density w -> 0 <= p_pressure w ->
  consistent g (CompleteFromPrim g w).
Proof.
  intros Hg Hr Hp. unfold consistent, CompleteFromPrim. cbn [energy density momentum pressure speed_of_sound].
  rewrite kinetic_energy by lra. rewrite perfect_mul by auto. destruct Hg as [Hg1 Hg2].
  split; [reflexivity|]. split; [apply sqrt_pos|]. apply sound_speed; [lra|]. nra.
Qed.

Lemma consistent_unique g q : perfect g -> 0 < density q -> consistent g q ->
  CompleteFromCons g (AsCons q) = q /\ CompleteFromPrim g (PrimFromComplete q) = q.
Proof.
  intros Hg Hr (He & Hc & Hs). destruct q as [rho m E p c]. unfold AsCons, CompleteFromCons, CompleteFromPrim, PrimFromComplete in *.
  cbn [c_density c_momentum c_energy p_density p_velocity p_pressure energy density momentum pressure speed_of_sound] in *.
  rewrite map_mul_div by lra. rewrite kinetic_energy by lra. rewrite perfect_div, perfect_mul by auto.
  destruct Hg as [Hg1 Hg2].
  assert (Ep : (E - kinetic rho (map (fun x => x / rho) m)) * (gamma g - 1) = p) by (rewrite He; field; lra).
  rewrite Ep. assert (Ec : sqrt (gamma g * p / rho) = c).
  { replace (gamma g * p / rho) with (c * c) by (rewrite <- Hs; field; lra). apply sqrt_square. exact Hc. }
  rewrite Ec, <- He. split; reflexivity.
Qed.

Lemma prim_roundtrip g w : p_density w <> 0 -> PrimFromComplete (CompleteFromPrim g w) = w.
Proof.
  intros H. destruct w as [rho v p]. unfold PrimFromComplete, CompleteFromPrim. cbn [p_density p_velocity p_pressure density momentum pressure] in *. rewrite map_div_mul by auto. reflexivity.
Qed.

(** ** Reflection *)
Lemma vsub_vscale_nth m k n i : length m = length n -> (i < length m)%nat ->
  nth i (vsub m (vscale k n)) 0 = nth i m 0 - k * nth i n 0.
Proof.
  unfold vsub. revert n i. induction m as [|x m IH]; intros [|y n] [|i] H Hi; cbn in *; try lia; auto.
  apply IH; lia.
Qed.

Lemma vscale_vscale a b v : vscale a (vscale b v) = vscale (a * b) v.
Proof. unfold vscale. rewrite map_map. apply map_ext. intros; ring. Qed.

Lemma reflect_form m n : reflect_vector m n = vsub m (vscale (2 * dot m n) n).
Proof. unfold reflect_vector. rewrite vscale_vscale. reflexivity. Qed.

Lemma reflect_length m n : length m = length n -> length (reflect_vector m n) = length m.
Proof. intros H. rewrite reflect_form. apply vsub_length. rewrite vscale_length. exact H. Qed.

Lemma reflect_dot m n t : length m = length n -> dot (reflect_vector m n) t = dot m t - 2 * dot m n * dot n t.
Proof.
  intros H. rewrite reflect_form, dot_sub_l by (rewrite vscale_length; exact H). rewrite dot_scale_l. reflexivity.
Qed.

Lemma reflect_twice m n : length m = length n -> unit n -> reflect_vector (reflect_vector m n) n = m.
Proof.
  intros H U. unfold unit in U. rewrite <- dot_self in U.
  rewrite (reflect_form (reflect_vector m n)), reflect_dot, U by auto.
  rewrite reflect_form. generalize (dot m n). intros k. clear U.
  unfold vsub, vscale. revert n H. induction m as [|x m IH]; intros [|y n] H; cbn in *; try lia; auto.
  f_equal; [lra|]. apply IH. lia.
Qed.

Lemma reflect_norm m n : length m = length n -> unit n -> squaredNorm (reflect_vector m n) = squaredNorm m.
Proof.
  intros H U. unfold unit in U. rewrite <- dot_self in U. unfold squaredNorm.
  rewrite reflect_dot by auto. rewrite (dot_comm m (reflect_vector m n)), reflect_dot by auto.
  rewrite (dot_comm n (reflect_vector m n)), reflect_dot by auto. rewrite U, (dot_comm n m). ring.
Qed.

(** ** Einfeldt speeds *)
Lemma sum_nth_le d v : nth d v 0 * nth d v 0 <= sum (map (fun x => x * x) v).
Proof.
  revert d. induction v as [|x v IH]; intros [|d]; cbn; try lra.
  - assert (0 <= sum (map (fun x => x * x) v)); [|lra]. clear. induction v; cbn; nra.
  - specialize (IH d). nra.
Qed.

Lemma map_nth_div d m rho : nth d (map (fun x => x / rho) m) 0 = nth d m 0 / rho.
Proof. revert d. induction m as [|x m IH]; intros [|d]; cbn; auto; unfold Rdiv; lra. Qed.

(** enthalpy exceeds the kinetic energy of the normal velocity *)
Lemma enthalpy g q d : perfect g -> admissible g q ->
  exists e, 0 < e /\ (energy q + pressure q) / density q = e + / 2 * (nth d (momentum q) 0 / density q * (nth d (momentum q) 0 / density q)).
Proof.
  intros [Hg _] (Hr & Hp & He & _). rewrite He. unfold kinetic.
  pose proof (sum_nth_le d (map (fun m => m / density q) (momentum q))) as N. rewrite map_nth_div in N.
  set (u := nth d (momentum q) 0 / density q) in *. set (s := sum _) in *.
  exists (/ 2 * (s - u * u) + (pressure q / (gamma g - 1) + pressure q) / density q). split.
  - assert (0 < (pressure q / (gamma g - 1) + pressure q) / density q); [|lra].
    apply Rmult_lt_0_compat; [|apply Rinv_0_lt_compat; lra].
    assert (0 < pressure q / (gamma g - 1)) by (apply Rmult_lt_0_compat; [lra | apply Rinv_0_lt_compat; lra]). lra.
  - field. lra.
Qed.

Lemma einfeldt_radicand g l r d : perfect g -> admissible g l -> admissible g r -> 0 < EinfeldtRadicand g l r d.
Proof.
  intros Hg Hl Hr. unfold EinfeldtRadicand. cbv zeta.
  destruct (enthalpy g l d Hg Hl) as (el & El & ->). destruct (enthalpy g r d Hg Hr) as (er & Er & ->).
  set (a := nth d (momentum l) 0 / density l). set (b := nth d (momentum r) 0 / density r).
  assert (P : 0 < sqrt (density l)) by (apply sqrt_lt_R0; apply Hl).
  assert (Q : 0 < sqrt (density r)) by (apply sqrt_lt_R0; apply Hr).
  set (x := sqrt (density l)) in *. set (y := sqrt (density r)) in *.
  apply Rmult_lt_0_compat; [destruct Hg; lra|].
  set (w := x * (1 / (x + y))). assert (W : y * (1 / (x + y)) = 1 - w) by (unfold w; field; lra).
  assert (W0 : 0 < w) by (unfold w; apply Rmult_lt_0_compat; [lra|]; apply Rmult_lt_0_compat; [lra | apply Rinv_0_lt_compat; lra]).
  assert (W1 : 0 < 1 - w) by (rewrite <- W; apply Rmult_lt_0_compat; [lra|]; apply Rmult_lt_0_compat; [lra | apply Rinv_0_lt_compat; lra]).
  replace (((el + / 2 * (a * a)) * x + (er + / 2 * (b * b)) * y) * (1 / (x + y)))
    with ((el + / 2 * (a * a)) * w + (er + / 2 * (b * b)) * (1 - w)) by (rewrite <- W; unfold w; ring).
  replace ((a * x + b * y) * (1 / (x + y))) with (a * w + b * (1 - w)) by (rewrite <- W; unfold w; ring).
  clearbody w a b. clear W P Q.
  assert (E : (el + / 2 * (a * a)) * w + (er + / 2 * (b * b)) * (1 - w) - 1 / 2 * (a * w + b * (1 - w)) * (a * w + b * (1 - w))
    = el * w + er * (1 - w) + / 2 * (w * (1 - w)) * ((a - b) * (a - b))) by field.
  rewrite E. assert (0 < el * w) by (apply Rmult_lt_0_compat; lra). assert (0 < er * (1 - w)) by (apply Rmult_lt_0_compat; lra).
  assert (0 <= / 2 * (w * (1 - w)) * ((a - b) * (a - b))); [|lra].
  apply Rmult_le_pos; [|apply Rle_0_sqr]. assert (0 < w * (1 - w)) by (apply Rmult_lt_0_compat; lra). lra.
Qed.

Lemma sound_positive g q : perfect g -> admissible g q -> 0 < speed_of_sound q.
Proof.
  intros [Hg _] (Hr & Hp & _ & Hc & Hs). destruct Hc as [|Hc]; [auto|]. rewrite <- Hc in Hs.
  rewrite Rmult_0_l, Rmult_0_r in Hs. nra.
Qed.
