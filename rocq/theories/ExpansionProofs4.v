(** Expansion to a Mach number, lemmas for C94. *)
From Coq Require Import List Reals Bool Lra Lia.
From Verif Require Import GasModel ExpansionModel ExpansionSpec ExpansionProofs ExpansionProofs2 ExpansionProofs3.
Import ListNotations.
Local Open Scope R_scope.

Lemma nth_set_nth : forall v d x, (d < length v)%nat -> nth d (set_nth d x v) 0 = x.
Proof. induction v as [|y v IH]; intros [|d] x H; cbn [length] in H; try lia; cbn [set_nth nth]; [reflexivity|]. apply IH. lia. Qed.
Lemma nth_set_other : forall v d x i, i <> d -> nth i (set_nth d x v) 0 = nth i v 0.
Proof.
  induction v as [|y v IH]; intros [|d] x [|i] H; cbn [set_nth nth]; try reflexivity; try congruence. apply IH. congruence.
Qed.
Lemma set_nth_length : forall v d x, length (set_nth d x v) = length v.
Proof. induction v as [|y v IH]; intros [|d] x; cbn [set_nth length]; try reflexivity. rewrite IH. reflexivity. Qed.

Section Mach.
Variables (eq : gas) (Ma : R) (d : nat) (q : Complete).
Let g := gamma eq.
Hypothesis Hg : 1 < g.
Hypothesis Hr : 0 < density q.
Hypothesis Hp : 0 < pressure q.
Hypothesis Hc : speed_of_sound q * speed_of_sound q = g * pressure q / density q.
Hypothesis Hd : (d < length (momentum q))%nat.
Let u := nth d (velocity_of q) 0.
Let c2 := g * pressure q / density q.
Let al := 1 + 1 / 2 * (u * u / c2) * (g - 1).
Let f := 1 + (g - 1) / 2 * (Ma * Ma).
Let q' := MachnumberExpand eq Ma d q.
Let un := sqrt (Ma * Ma * (c2 * al / f)).

Lemma c2_pos : 0 < c2.
Proof. unfold c2. apply Rdiv_lt_0_compat; [apply Rmult_lt_0_compat; lra | exact Hr]. Qed.
Lemma al_pos : 1 <= al.
Proof.
  unfold al. assert (0 <= u * u / c2).
  { apply Rmult_le_pos; [generalize (Rle_0_sqr u); unfold Rsqr; lra|]. left. apply Rinv_0_lt_compat. apply c2_pos. }
  assert (0 <= 1 / 2 * (u * u / c2) * (g - 1)) by (apply Rmult_le_pos; lra). lra.
Qed.
Lemma f_pos : 1 <= f.
Proof.
  unfold f. assert (0 <= Ma * Ma) by (generalize (Rle_0_sqr Ma); unfold Rsqr; lra).
  assert (0 <= (g - 1) / 2 * (Ma * Ma)) by (apply Rmult_le_pos; lra). lra.
Qed.
Lemma ratio_pos : 0 < al / f.
Proof. generalize al_pos f_pos; intros. apply Rdiv_lt_0_compat; lra. Qed.

Lemma mach_velocity2 : Ma * Ma * (g + 1) / (Ma * Ma * (g - 1) + 2) * ((c2 + 1 / 2 * (g - 1) * (u * u)) * 2 / (g + 1)) = Ma * Ma * (c2 * al / f).
Proof.
  generalize c2_pos f_pos; intros C F. unfold f in *. unfold al. field. repeat split; try lra.
Qed.

Lemma mach_fields :
  density q' = density q * Rpower al (1 / (g - 1)) * Rpower (/ f) (1 / (g + 1)) /\
  pressure q' = pressure q * Rpower (al / f) (g / (g - 1)) /\
  velocity_of q' = set_nth d un (velocity_of q) /\
  speed_of_sound q' = sqrt (g * pressure q' / density q').
Proof.
  generalize al_pos f_pos; intros A F.
  assert (D0 : 0 < density q * Rpower al (1 / (g - 1)) * Rpower (/ f) (1 / (g + 1))).
  { repeat apply Rmult_lt_0_compat; try apply Rpower_pos. exact Hr. }
  assert (E : q' = CompleteFromPrim eq (mkPrim (density q * Rpower al (1 / (g - 1)) * Rpower (/ f) (1 / (g + 1)))
                       (set_nth d un (velocity_of q)) (pressure q * Rpower (al / f) (g / (g - 1))))).
  { unfold q', MachnumberExpand, PrimFromComplete. cbn [p_velocity]. fold (velocity_of q). fold u g. rewrite Hc. fold c2. fold al.
    rewrite laval by exact Hg. fold f. rewrite mach_velocity2. fold un. do 2 f_equal.
    rewrite Rpower_div by lra. rewrite Rpower_inv by lra. field. apply Rgt_not_eq. apply Rpower_pos. }
  rewrite E. unfold CompleteFromPrim. cbn [density pressure p_density p_pressure p_velocity speed_of_sound].
  split; [reflexivity|]. split; [reflexivity|]. split; [|reflexivity].
  unfold velocity_of at 1. cbn [density momentum]. apply vscale_div. lra.
Qed.

(** density of the same entropy *)
Let rs := iso g (density q) (pressure q) (pressure q').

Lemma rs_eq : rs = density q * Rpower (al / f) (1 / (g - 1)).
Proof.
  destruct mach_fields as [_ [E _]]. unfold rs, iso. rewrite E.
  replace (pressure q * Rpower (al / f) (g / (g - 1)) / pressure q) with (Rpower (al / f) (g / (g - 1))) by (field; lra).
  rewrite Rpower_mult. do 2 f_equal. field. split; lra.
Qed.
Lemma rs_temperature : pressure q' / rs = pressure q / density q * (al / f).
Proof.
  rewrite rs_eq. destruct mach_fields as [_ [E _]]. rewrite E.
  replace (g / (g - 1)) with (1 + 1 / (g - 1)) by (field; lra).
  generalize ratio_pos; intro Q. rewrite Rpower_plus, Rpower_1 by exact Q. generalize (Rpower_pos (al / f) (1 / (g - 1))); intro P.
  set (x := al / f) in *. clearbody x. field. repeat split; lra.
Qed.
Lemma mach_density : density q' = rs * Rpower f (2 / ((g - 1) * (g + 1))).
Proof.
  generalize al_pos f_pos; intros A F. rewrite rs_eq. destruct mach_fields as [E _]. rewrite E.
  rewrite Rpower_div by lra. rewrite Rpower_inv by lra.
  replace (Rpower f (1 / (g - 1))) with (Rpower f (2 / ((g - 1) * (g + 1))) * Rpower f (1 / (g + 1))).
  2:{ rewrite <- Rpower_plus. f_equal. field. split; lra. }
  field. split; apply Rgt_not_eq; apply Rpower_pos.
Qed.
Lemma pressure_new_pos : 0 < pressure q'.
Proof. destruct mach_fields as [_ [E _]]. rewrite E. apply Rmult_lt_0_compat; [exact Hp | apply Rpower_pos]. Qed.
Lemma un2 : un * un = Ma * Ma * (c2 * al / f).
Proof.
  generalize al_pos f_pos c2_pos; intros A F C. unfold un. apply sqrt_sqrt.
  apply Rmult_le_pos; [generalize (Rle_0_sqr Ma); unfold Rsqr; lra|]. left. apply Rdiv_lt_0_compat; [apply Rmult_lt_0_compat|]; lra.
Qed.
Lemma rs_sound : g * pressure q' / rs = c2 * (al / f).
Proof.
  replace (g * pressure q' / rs) with (g * (pressure q' / rs)) by (unfold Rdiv; ring). rewrite rs_temperature. unfold c2, Rdiv. ring.
Qed.
Lemma mach_reference :
  same_entropy g (density q) (pressure q) rs (pressure q') /\
  mach_squared g rs [un] (pressure q') = Ma * Ma /\
  stagnation_enthalpy g rs [un] (pressure q') = stagnation_enthalpy g (density q) [u] (pressure q).
Proof.
  generalize al_pos f_pos c2_pos; intros A F C.
  split; [apply iso_entropy; try assumption; apply pressure_new_pos|]. split.
  - unfold mach_squared. cbn [sprod]. rewrite rs_sound, un2. field. repeat split; lra.
  - unfold stagnation_enthalpy, enthalpy. cbn [sprod]. rewrite un2.
    rewrite rs_temperature.
    assert (P : pressure q / density q = c2 / g) by (unfold c2; field; lra).
    rewrite P. clear P. unfold al, f in *. clearbody c2. field. repeat split; try lra.
Qed.
Lemma f_gt : Ma <> 0 -> 1 < f.
Proof.
  intro H. unfold f. assert (0 < Ma * Ma) by (apply sqr_pos; exact H).
  assert (0 < (g - 1) / 2 * (Ma * Ma)) by (apply Rmult_lt_0_compat; lra). lra.
Qed.
Lemma mach_too_dense : Ma <> 0 -> rs < density q'.
Proof.
  intro H. rewrite mach_density. assert (0 < rs) by (apply iso_pos; exact Hr).
  assert (E : 0 < 2 / ((g - 1) * (g + 1))) by (apply Rdiv_lt_0_compat; [lra|]; apply Rmult_lt_0_compat; lra).
  assert (P := f_gt H). generalize (Rlt_Rpower_l 1 f _ E (conj Rlt_0_1 P)). rewrite Rpower_base_1. intro L.
  replace rs with (rs * 1) at 1 by ring. apply Rmult_lt_compat_l; assumption.
Qed.
Lemma mach_actual : mach_squared g (density q') [un] (pressure q') = Ma * Ma * Rpower f (2 / ((g - 1) * (g + 1))).
Proof.
  destruct mach_reference as [_ [E _]]. rewrite <- E. rewrite mach_density. unfold mach_squared.
  assert (0 < rs) by (apply iso_pos; exact Hr). generalize pressure_new_pos (Rpower_pos f (2 / ((g - 1) * (g + 1)))); intros.
  field. repeat split; lra.
Qed.
Lemma un_pos : Ma <> 0 -> 0 < un.
Proof.
  intro H. generalize al_pos f_pos c2_pos; intros A F C. unfold un. apply sqrt_lt_R0. apply Rmult_lt_0_compat; [apply sqr_pos; exact H|].
  apply Rdiv_lt_0_compat; [apply Rmult_lt_0_compat|]; lra.
Qed.
Lemma mach_component : nth d (velocity_of q') 0 = un.
Proof.
  destruct mach_fields as [_ [_ [E _]]]. rewrite E. apply nth_set_nth. unfold velocity_of. rewrite map_length. exact Hd.
Qed.
Lemma not_same_entropy : Ma <> 0 -> ~ same_entropy g (density q) (pressure q) (density q') (pressure q').
Proof.
  intros H. destruct mach_reference as [E _]. unfold same_entropy in *. rewrite E. intro S.
  assert (L := mach_too_dense H). assert (0 < rs) by (apply iso_pos; exact Hr). assert (G : 0 < g) by lra.
  assert (Z := Rlt_Rpower_l rs (density q') g G (conj H0 L)). generalize (Rpower_pos rs g) (Rpower_pos (density q') g) pressure_new_pos; intros P1 P2 P3.
  assert (pressure q' / Rpower (density q') g < pressure q' / Rpower rs g); [|lra].
  apply Rmult_lt_compat_l; [exact P3|]. apply Rinv_lt_contravar; [|exact Z]. apply Rmult_lt_0_compat; assumption.
Qed.
End Mach.
