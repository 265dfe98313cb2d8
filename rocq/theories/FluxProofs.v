(** Lemmas for C26-C29. *)
From Coq Require Import List ZArith Reals Lia Lra Psatz.
From Verif Require Import FluxModel FluxSpec.
Import ListNotations.
Local Open Scope R_scope.

Ltac minmax := unfold Rmin, Rmax in *; repeat (match goal with |- context[Rle_dec ?a ?b] => destruct (Rle_dec a b) | H : context[Rle_dec ?a ?b] |- _ => destruct (Rle_dec a b) end).

(** ** Time steps *)
Lemma max_abs_ge0 l : 0 <= max_abs l.
Proof.
  unfold max_abs. assert (H : forall l a, 0 <= a -> 0 <= fold_left (fun x y => Rmax x (Rabs y)) l a).
  { induction l0; cbn; intros b Hb; auto. apply IHl0. eapply Rle_trans; [apply Hb | apply Rmax_l]. }
  apply H. lra.
Qed.

Lemma dt_divide c dt dx s : 0 < dx -> 0 <= dt -> 0 <= s -> dt_at_most c dt (divide_dt dx s) -> 0 <= c ->
  dt / dx * s <= c.
Proof.
  unfold divide_dt, dt_at_most. intros Hx Ht Hs H Hc. destruct (Req_EM_T s 0) as [-> | n].
  - rewrite Rmult_0_r. lra.
  - assert (0 < s) by lra. apply (Rmult_le_compat_r (s / dx)) in H.
    + replace (dt / dx * s) with (dt * (s / dx)) by (field; lra).
      replace c with (c * (dx / s) * (s / dx)) by (field; lra). exact H.
    + apply Rlt_le, Rdiv_lt_0_compat; lra.
Qed.

Lemma ratio_ge0 dt dx : 0 <= dt -> 0 < dx -> 0 <= dt / dx.
Proof. intros; apply Rmult_le_pos; [lra | apply Rlt_le, Rinv_0_lt_compat; lra]. Qed.

(** ** HLL *)
Section Hll.
Variables (S K : Type) (cons flux : S -> K -> R) (sp : S -> S -> R * R) (cfc : (K -> R) -> S).
Notation F := (HllFlux S K cons flux sp).
Notation RP := (HllRiemann S K cons flux sp cfc).
Notation ds := (HllDs S sp).

Lemma hll_consistent q k : 0 < ds q q -> F q q k = flux q k.
Proof. unfold HllFlux, HllDs. intros H. field. lra. Qed.

Lemma hll_pressure_consistent (p : S -> R) l r : 0 < ds l r -> p l = p r -> HllPressure S sp p l r = p l.
Proof. unfold HllPressure, HllDs. intros H E. rewrite <- E. field. lra. Qed.

Lemma hll_rh l r k : (forall q k, cons (cfc q) k = q k) ->
  fst (sp l r) < snd (sp l r) -> fst (sp l r) <= 0 <= snd (sp l r) ->
  rankine_hugoniot (fst (sp l r)) (flux l k) (F l r k) (cons l k) (cons (RP l r) k) /\
  rankine_hugoniot (snd (sp l r)) (F l r k) (flux r k) (cons (RP l r) k) (cons r k).
Proof.
  intros Hc Hlt Hs. unfold rankine_hugoniot, HllRiemann, HllFlux. cbv zeta.
  destruct (sp l r) as [a b]; cbn [fst snd] in *.
  destruct (Req_EM_T a b); [lra|]. destruct (Rlt_dec 0 a); [lra|]. destruct (Rlt_dec b 0); [lra|].
  rewrite Hc. rewrite (Rmin_right 0 a), (Rmax_right 0 b) by lra. split; field; lra.
Qed.

Lemma hll_right_going l r k : 0 <= fst (sp l r) -> 0 < snd (sp l r) -> F l r k = flux l k.
Proof.
  unfold HllFlux. cbv zeta. intros Ha Hb. rewrite Rmin_left, Rmax_right by lra. field. lra.
Qed.

Lemma hll_left_going l r k : snd (sp l r) <= 0 -> fst (sp l r) < 0 -> F l r k = flux r k.
Proof.
  unfold HllFlux. cbv zeta. intros Ha Hb. rewrite Rmin_right, Rmax_left by lra. field. lra.
Qed.

Lemma hll_lane l r k : 0 < ds l r -> HllFlux_lane S K cons flux sp l r k = F l r k.
Proof.
  unfold HllFlux_lane, HllFlux, HllDs. cbv zeta. intros H. rewrite (Rmin_comm _ 0), (Rmax_comm _ 0).
  destruct (Rlt_dec _ _); [reflexivity | lra].
Qed.

(** Splitting of the HLL flux for a component transported with velocity [v]. *)
Lemma hll_transport (v : S -> R) k l r : flux l k = cons l k * v l -> flux r k = cons r k * v r -> 0 < ds l r ->
  F l r k = Rmax 0 (snd (sp l r)) * (v l - Rmin 0 (fst (sp l r))) / ds l r * cons l k
          - (- Rmin 0 (fst (sp l r))) * (Rmax 0 (snd (sp l r)) - v r) / ds l r * cons r k.
Proof. unfold HllFlux, HllDs. cbv zeta. intros -> -> H. field. lra. Qed.

Lemma max_abs2 a b : max_abs [a; b] = Rmax (Rmax 0 (Rabs a)) (Rabs b).
Proof. reflexivity. Qed.

Definition encloses (v : S -> R) l r : Prop :=
  fst (sp l r) < v l /\ fst (sp l r) < v r /\ v l < snd (sp l r) /\ v r < snd (sp l r).

Lemma encloses_ds v l r : encloses v l r -> 0 < ds l r.
Proof. unfold encloses, HllDs. intros H. minmax; lra. Qed.

Lemma coef_bound p q : 0 <= p -> p <= q -> 0 < q -> p / q <= 1.
Proof. intros. apply Rmult_le_reg_r with q; [lra|]. unfold Rdiv. rewrite Rmult_assoc, Rinv_l; lra. Qed.

Lemma hll_positive (v : S -> R) k l m r dt dx : 0 < dx -> 0 <= dt ->
  (forall x, x = l \/ x = m \/ x = r -> flux x k = cons x k * v x) ->
  encloses v l m -> encloses v m r ->
  dt_at_most (1 / 2) dt (HllStableDt S sp dx l m) -> dt_at_most (1 / 2) dt (HllStableDt S sp dx m r) ->
  0 <= cons l k -> 0 < cons m k -> 0 <= cons r k ->
  0 < cons m k + dt / dx * (F l m k - F m r k).
Proof.
  intros Hx Ht Hf He1 He2 Hd1 Hd2 Hl Hm Hr.
  pose proof (encloses_ds _ _ _ He1) as D1. pose proof (encloses_ds _ _ _ He2) as D2.
  rewrite (hll_transport v k l m), (hll_transport v k m r) by auto.
  unfold HllStableDt in *. rewrite max_abs2 in *.
  apply dt_divide in Hd1; try lra; [|eapply Rle_trans; [apply Rabs_pos | apply Rmax_r]].
  apply dt_divide in Hd2; try lra; [|eapply Rle_trans; [apply Rabs_pos | apply Rmax_r]].
  set (lam := dt / dx) in *. assert (HL : 0 <= lam) by (apply ratio_ge0; lra).
  unfold encloses in *. unfold HllDs in *.
  set (a := fst (sp l m)) in *. set (b := snd (sp l m)) in *.
  set (a' := fst (sp m r)) in *. set (b' := snd (sp m r)) in *.
  clearbody lam a b a' b'.
  set (A := - Rmin 0 a). set (B := Rmax 0 b). set (A' := - Rmin 0 a'). set (B' := Rmax 0 b').
  assert (HA : 0 <= A /\ A <= Rmax (Rmax 0 (Rabs a)) (Rabs b) /\ - A <= a).
  { unfold A. assert (Rabs a <= Rmax (Rmax 0 (Rabs a)) (Rabs b)) by (eapply Rle_trans; [apply Rmax_r | apply Rmax_l]).
    assert (0 <= Rabs a) by apply Rabs_pos. assert (- a <= Rabs a) by (rewrite <- Rabs_Ropp; apply RRle_abs).
    unfold Rmin. destruct (Rle_dec 0 a); repeat split; lra. }
  assert (HB : 0 <= B' /\ B' <= Rmax (Rmax 0 (Rabs a')) (Rabs b') /\ b' <= B').
  { unfold B'. assert (Rabs b' <= Rmax (Rmax 0 (Rabs a')) (Rabs b')) by apply Rmax_r.
    assert (0 <= Rabs b') by apply Rabs_pos. assert (b' <= Rabs b') by apply RRle_abs.
    split; [apply Rmax_l|]. split; [apply Rmax_lub; lra | apply Rmax_r]. }
  assert (HB1 : 0 <= B /\ b <= B) by (unfold B; split; [apply Rmax_l | apply Rmax_r]).
  assert (HA1 : 0 <= A' /\ - A' <= a') by (unfold A'; pose proof (Rmin_l 0 a'); pose proof (Rmin_r 0 a'); lra).
  replace (Rmin 0 a) with (- A) in * by (unfold A; lra). replace (Rmin 0 a') with (- A') in * by (unfold A'; lra).
  fold B B' in D1, D2 |- *.
  set (M1 := Rmax (Rmax 0 (Rabs a)) (Rabs b)) in *. set (M2 := Rmax (Rmax 0 (Rabs a')) (Rabs b')) in *.
  clearbody M1 M2 A B A' B'.
  (* the contributions of the neighbours are not negative *)
  assert (P1 : 0 <= B * (v l - - A) / (B - - A) * cons l k).
  { apply Rmult_le_pos; [|lra]. apply Rmult_le_pos; [apply Rmult_le_pos; lra | apply Rlt_le, Rinv_0_lt_compat; lra]. }
  assert (P2 : 0 <= A' * (B' - v r) / (B' - - A') * cons r k).
  { apply Rmult_le_pos; [|lra]. apply Rmult_le_pos; [apply Rmult_le_pos; lra | apply Rlt_le, Rinv_0_lt_compat; lra]. }
  (* what the cell loses *)
  assert (Q1 : lam * (A * (B - v m) / (B - - A)) <= 1 / 2 /\ (0 < lam * A -> lam * (A * (B - v m) / (B - - A)) < 1 / 2)).
  { assert (E : lam * (A * (B - v m) / (B - - A)) = lam * A * ((B - v m) / (B - - A))) by (field; lra).
    assert (0 <= lam * A) by nra. assert (lam * A <= 1 / 2) by nra.
    assert ((B - v m) / (B - - A) < 1).
    { apply Rmult_lt_reg_r with (B - - A); [lra|]. unfold Rdiv. rewrite Rmult_assoc, Rinv_l; lra. }
    rewrite E. split; nra. }
  assert (Q2 : lam * (B' * (v m - - A') / (B' - - A')) <= 1 / 2 /\ (0 < lam * B' -> lam * (B' * (v m - - A') / (B' - - A')) < 1 / 2)).
  { assert (E : lam * (B' * (v m - - A') / (B' - - A')) = lam * B' * ((v m - - A') / (B' - - A'))) by (field; lra).
    assert (0 <= lam * B') by nra. assert (lam * B' <= 1 / 2) by nra.
    assert ((v m - - A') / (B' - - A') < 1).
    { apply Rmult_lt_reg_r with (B' - - A'); [lra|]. unfold Rdiv. rewrite Rmult_assoc, Rinv_l; lra. }
    rewrite E. split; nra. }
  set (x1 := A * (B - v m) / (B - - A)) in *. set (y1 := B' * (v m - - A') / (B' - - A')) in *.
  assert (S1 : lam * x1 + lam * y1 < 1).
  { destruct Q1 as [Q1 Q1']. destruct Q2 as [Q2 Q2'].
    destruct (Rlt_dec 0 (lam * A)) as [h | h]; [specialize (Q1' h); lra|].
    assert (lam * A = 0) by nra.
    assert (lam * x1 = 0). { unfold x1. replace (lam * (A * (B - v m) / (B - - A))) with (lam * A * ((B - v m) / (B - - A))) by (field; lra). rewrite H. lra. }
    lra. }
  set (z1 := B * (v l - - A) / (B - - A) * cons l k) in *. set (z2 := A' * (B' - v r) / (B' - - A') * cons r k) in *.
  replace (cons m k + lam * (z1 - x1 * cons m k - (y1 * cons m k - z2)))
    with ((1 - (lam * x1 + lam * y1)) * cons m k + lam * z1 + lam * z2) by ring.
  assert (0 < (1 - (lam * x1 + lam * y1)) * cons m k) by (apply Rmult_lt_0_compat; lra).
  assert (0 <= lam * z1) by (apply Rmult_le_pos; lra). assert (0 <= lam * z2) by (apply Rmult_le_pos; lra). lra.
Qed.
End Hll.

Lemma transmissive_nearest {A} n (u : Z -> A) i : (0 < n)%Z -> transmissive n u i = u (nearest n i).
Proof.
  intros Hn. unfold transmissive, nearest. destruct (Z.ltb_spec i 0).
  - f_equal. lia.
  - destruct (Z.leb_spec n i); f_equal; lia.
Qed.

Lemma sw_encloses g d l r : 0 < g -> 0 < l Height -> 0 < r Height ->
  encloses (sw_component -> R) (ShallowWaterSignalVelocities g d) (fun q => q (momentum_of d) / q Height) l r.
Proof.
  intros Hg Hl Hr. unfold encloses, ShallowWaterSignalVelocities. cbv zeta. cbn [fst snd].
  assert (0 < sqrt (g * l Height)) by (apply sqrt_lt_R0; nra).
  assert (0 < sqrt (g * r Height)) by (apply sqrt_lt_R0; nra).
  set (x := l (momentum_of d) / l Height). set (y := r (momentum_of d) / r Height).
  set (cl := sqrt (g * l Height)) in *. set (cr := sqrt (g * r Height)) in *. clearbody x y cl cr.
  repeat split; minmax; lra.
Qed.

Lemma sw_step_positive g d dx n u dt : 0 < g -> 0 < dx -> (0 < n)%Z ->
  (forall i, (0 <= i < n)%Z -> 0 < u i Height) -> 0 <= dt ->
  (forall i, (0 <= i <= n)%Z ->
     dt_at_most (1 / 2) dt (HllStableDt _ (ShallowWaterSignalVelocities g d) dx (u (nearest n (i - 1))) (u (nearest n i)))) ->
  forall i, (0 <= i < n)%Z ->
  0 < system_step (HllFlux _ _ (fun q => q) (ShallowWaterFlux g d) (ShallowWaterSignalVelocities g d)) dx n u dt i Height.
Proof.
  intros Hg Hx Hn Hu Ht Hs i Hi. unfold system_step, fv_update, face_fluxes.
  rewrite !transmissive_nearest by lia. replace (i + 1 - 1)%Z with i by lia.
  assert (B : forall j, (0 <= nearest n j < n)%Z) by (intros; unfold nearest; lia).
  apply (hll_positive _ _ (fun q => q) (ShallowWaterFlux g d) (ShallowWaterSignalVelocities g d)
           (fun q => q (momentum_of d) / q Height) Height (u (nearest n (i - 1))) (u (nearest n i)) (u (nearest n (i + 1)))); auto.
  - intros x Hx'. unfold ShallowWaterFlux. cbv zeta. field.
    assert (0 < x Height) by (destruct Hx' as [-> | [-> | ->]]; apply Hu, B). lra.
  - apply sw_encloses; auto; apply Hu, B.
  - apply sw_encloses; auto; apply Hu, B.
  - apply Hs; lia.
  - specialize (Hs (i + 1)%Z). replace (i + 1 - 1)%Z with i in Hs by lia. apply Hs; lia.
  - apply Rlt_le, Hu, B.
  - apply Rlt_le, Hu, B.
Qed.

Lemma sw_positive g d dx n dts : 0 < g -> 0 < dx -> (0 < n)%Z -> forall u,
  (forall i, (0 <= i < n)%Z -> 0 < u i Height) ->
  stable_steps (system_step (HllFlux _ _ (fun q => q) (ShallowWaterFlux g d) (ShallowWaterSignalVelocities g d)) dx n)
    (1 / 2) (HllStableDt _ (ShallowWaterSignalVelocities g d) dx) n dts u ->
  forall i, (0 <= i < n)%Z ->
  0 < system_steps (HllFlux _ _ (fun q => q) (ShallowWaterFlux g d) (ShallowWaterSignalVelocities g d)) dx n dts u i Height.
Proof.
  intros Hg Hx Hn. unfold system_steps. induction dts as [|dt r IH]; intros u Hu Hs i Hi; [apply Hu; auto|].
  destruct Hs as (Ht & Hd & Hr). cbn [fold_left]. apply IH; auto. intros j Hj. apply sw_step_positive; auto.
Qed.

(** ** Harten's lemma *)

(** Incremental form of a scheme: face coefficients [C], [D] of a step from [g] to [w]. *)
Definition incremental (C D : Z -> R) (g w : Z -> R) (i : Z) : Prop :=
  w i = g i - C i * (g i - g (i - 1)%Z) + D (i + 1)%Z * (g (i + 1)%Z - g i).

Lemma variation_snoc u a m : variation u a (S m) = variation u a m + Rabs (u (a + Z.of_nat m + 1)%Z - u (a + Z.of_nat m)%Z).
Proof.
  revert a. induction m; intros a.
  - cbn [variation]. rewrite Z.add_0_r. ring.
  - change (variation u a (S (S m))) with (Rabs (u (a + 1)%Z - u a) + variation u (a + 1)%Z (S m)).
    rewrite IHm. cbn [variation]. replace (a + 1 + Z.of_nat m)%Z with (a + Z.of_nat (S m))%Z by lia. ring.
Qed.

Lemma harten C D g w a m :
  (forall i, (a <= i <= a + Z.of_nat m)%Z -> incremental C D g w i) ->
  (forall i, (a <= i <= a + Z.of_nat m + 1)%Z -> 0 <= C i /\ 0 <= D i /\ C i + D i <= 1) ->
  variation w a m <= variation g a m + C a * Rabs (g a - g (a - 1)%Z)
    - C (a + Z.of_nat m)%Z * Rabs (g (a + Z.of_nat m)%Z - g (a + Z.of_nat m - 1)%Z)
    + D (a + Z.of_nat m + 1)%Z * Rabs (g (a + Z.of_nat m + 1)%Z - g (a + Z.of_nat m)%Z)
    - D (a + 1)%Z * Rabs (g (a + 1)%Z - g a).
Proof.
  induction m as [|m IH]; intros Hi Hc.
  - cbn [variation]. change (Z.of_nat 0) with 0%Z. rewrite !Z.add_0_r. lra.
  - rewrite !variation_snoc.
    assert (IH' := IH (fun i h => Hi i ltac:(lia)) (fun i h => Hc i ltac:(lia))). clear IH.
    pose proof (Hi (a + Z.of_nat m)%Z ltac:(lia)) as E1. pose proof (Hi (a + Z.of_nat m + 1)%Z ltac:(lia)) as E2.
    unfold incremental in E1, E2.
    replace (a + Z.of_nat m + 1 - 1)%Z with (a + Z.of_nat m)%Z in E2 by lia.
    replace (a + Z.of_nat (S m))%Z with (a + Z.of_nat m + 1)%Z by lia.
    replace (a + Z.of_nat m + 1 - 1)%Z with (a + Z.of_nat m)%Z by lia.
    set (p := (a + Z.of_nat m)%Z) in *.
    pose proof (Hc p ltac:(lia)) as C0. pose proof (Hc (p + 1)%Z ltac:(lia)) as C1. pose proof (Hc (p + 1 + 1)%Z ltac:(lia)) as C2.
    set (d0 := g p - g (p - 1)%Z) in *. set (d1 := g (p + 1)%Z - g p) in *. set (d2 := g (p + 1 + 1)%Z - g (p + 1)%Z) in *.
    assert (E : w (p + 1)%Z - w p = (1 - C (p + 1)%Z - D (p + 1)%Z) * d1 + C p * d0 + D (p + 1 + 1)%Z * d2).
    { rewrite E1, E2. unfold d0, d1, d2. ring. }
    rewrite E.
    assert (T : Rabs ((1 - C (p + 1)%Z - D (p + 1)%Z) * d1 + C p * d0 + D (p + 1 + 1)%Z * d2)
              <= (1 - C (p + 1)%Z - D (p + 1)%Z) * Rabs d1 + C p * Rabs d0 + D (p + 1 + 1)%Z * Rabs d2).
    { eapply Rle_trans; [apply Rabs_triang|]. apply Rplus_le_compat.
      - eapply Rle_trans; [apply Rabs_triang|]. rewrite !Rabs_mult, (Rabs_right (1 - _ - _)), (Rabs_right (C p)) by lra. lra.
      - rewrite Rabs_mult, Rabs_right by lra. lra. }
    clearbody d0 d1 d2. lra.
Qed.

Lemma harten_window C D g w a m :
  (forall i, (a <= i <= a + Z.of_nat m)%Z -> incremental C D g w i) ->
  (forall i, (a <= i <= a + Z.of_nat m + 1)%Z -> 0 <= C i /\ 0 <= D i /\ C i + D i <= 1) ->
  variation w a m <= Rabs (g a - g (a - 1)%Z) + variation g a m + Rabs (g (a + Z.of_nat m + 1)%Z - g (a + Z.of_nat m)%Z).
Proof.
  intros Hi Hc. pose proof (harten C D g w a m Hi Hc) as H.
  pose proof (Hc a ltac:(lia)) as C0. pose proof (Hc (a + 1)%Z ltac:(lia)) as C1.
  pose proof (Hc (a + Z.of_nat m)%Z ltac:(lia)) as C2. pose proof (Hc (a + Z.of_nat m + 1)%Z ltac:(lia)) as C3.
  assert (K1 : C a * Rabs (g a - g (a - 1)%Z) <= Rabs (g a - g (a - 1)%Z)) by (pose proof (Rabs_pos (g a - g (a - 1)%Z)); nra).
  assert (K2 : D (a + Z.of_nat m + 1)%Z * Rabs (g (a + Z.of_nat m + 1)%Z - g (a + Z.of_nat m)%Z) <= Rabs (g (a + Z.of_nat m + 1)%Z - g (a + Z.of_nat m)%Z))
    by (pose proof (Rabs_pos (g (a + Z.of_nat m + 1)%Z - g (a + Z.of_nat m)%Z)); nra).
  assert (K3 : 0 <= C (a + Z.of_nat m)%Z * Rabs (g (a + Z.of_nat m)%Z - g (a + Z.of_nat m - 1)%Z)) by (apply Rmult_le_pos; [lra | apply Rabs_pos]).
  assert (K4 : 0 <= D (a + 1)%Z * Rabs (g (a + 1)%Z - g a)) by (apply Rmult_le_pos; [lra | apply Rabs_pos]).
  lra.
Qed.

Lemma variation_ext u w a m : (forall i, (a <= i <= a + Z.of_nat m)%Z -> u i = w i) -> variation u a m = variation w a m.
Proof.
  revert a. induction m; intros a H; cbn [variation]; [reflexivity|].
  rewrite (IHm (a + 1)%Z) by (intros; apply H; lia). rewrite (H a), (H (a + 1)%Z) by lia. reflexivity.
Qed.

(** ** Schemes in conservation form: face coefficients *)
Section Incremental.
Variables (f : R -> R) (nf : R -> R -> R) (lam : R).
Definition coefC l r := if Req_EM_T l r then 0 else lam * (f r - nf l r) / (r - l).
Definition coefD l r := if Req_EM_T l r then 0 else lam * (f l - nf l r) / (r - l).
Hypothesis consistent : forall u, nf u u = f u.

Lemma coefC_jump l r : coefC l r * (r - l) = lam * (f r - nf l r).
Proof. unfold coefC. destruct (Req_EM_T l r) as [-> | n]; [rewrite consistent; ring | field; lra]. Qed.
Lemma coefD_jump l r : coefD l r * (r - l) = lam * (f l - nf l r).
Proof. unfold coefD. destruct (Req_EM_T l r) as [-> | n]; [rewrite consistent; ring | field; lra]. Qed.

Lemma conservation_incremental g w i : w i = g i + lam * (nf (g (i - 1)%Z) (g i) - nf (g i) (g (i + 1)%Z)) ->
  incremental (fun i => coefC (g (i - 1)%Z) (g i)) (fun i => coefD (g (i - 1)%Z) (g i)) g w i.
Proof.
  intros E. unfold incremental. rewrite coefC_jump. replace (i + 1 - 1)%Z with i by lia. rewrite coefD_jump. rewrite E. ring.
Qed.
End Incremental.

(** ** Burgers *)
Notation bf := (GodunovFlux BurgersFlux BurgersRiemann).
Notation bdt := (GodunovStableDt BurgersSignals).

Definition bspeed (l r : R) : R := if Rlt_dec r l then Rabs (1 / 2 * (l + r)) else Rmax (Rabs l) (Rabs r).

Lemma burgers_consistent u : bf u u = BurgersFlux u.
Proof.
  unfold GodunovFlux, BurgersRiemann. destruct (Rlt_dec u u); [lra|].
  destruct (Rlt_dec 0 u); [reflexivity|]. destruct (Rlt_dec u 0); [reflexivity|]. replace u with 0 by lra. reflexivity.
Qed.

Lemma burgers_speed l r : max_abs (BurgersSignals l r) = bspeed l r.
Proof.
  unfold BurgersSignals, bspeed, max_abs. destruct (Rlt_dec r l); cbn [fold_left].
  - rewrite Rmax_right; auto. apply Rabs_pos.
  - assert (0 <= Rmax (Rabs l) (Rabs r)) by (eapply Rle_trans; [apply Rabs_pos | apply Rmax_l]).
    rewrite (Rabs_right (Rmax _ _)) by lra. rewrite Rmax_right; lra.
Qed.

Lemma burgers_lane l r : BurgersRiemann_lane l r = BurgersRiemann l r.
Proof. unfold BurgersRiemann_lane, BurgersRiemann. cbv zeta. destruct (Rlt_dec r l); reflexivity. Qed.

Lemma quot_le0 p q : 0 <= p -> 0 < q -> 0 <= p / q.
Proof. intros; apply Rmult_le_pos; [lra | apply Rlt_le, Rinv_0_lt_compat; lra]. Qed.

(** The coefficients of one face. *)
Lemma burgers_coefs lam l r : 0 <= lam -> lam * bspeed l r <= 1 ->
  0 <= coefC BurgersFlux bf lam l r /\ 0 <= coefD BurgersFlux bf lam l r /\
  coefC BurgersFlux bf lam l r + coefD BurgersFlux bf lam l r <= 1.
Proof.
  intros Hl Hs. unfold coefC, coefD. destruct (Req_EM_T l r) as [-> | ne]; [lra|].
  unfold GodunovFlux, BurgersRiemann, bspeed in *. destruct (Rlt_dec r l) as [sh | ra]; cbv zeta.
  - destruct (Rlt_dec (1 / 2 * (l + r)) 0) as [neg | pos]; unfold BurgersFlux.
    + rewrite Rabs_left in Hs by lra.
      replace (lam * (1 / 2 * r * r - 1 / 2 * r * r) / (r - l)) with 0 by (field; lra).
      replace (lam * (1 / 2 * l * l - 1 / 2 * r * r) / (r - l)) with (lam * - (1 / 2 * (l + r))) by (field; lra).
      repeat split; nra.
    + rewrite Rabs_right in Hs by lra.
      replace (lam * (1 / 2 * l * l - 1 / 2 * l * l) / (r - l)) with 0 by (field; lra).
      replace (lam * (1 / 2 * r * r - 1 / 2 * l * l) / (r - l)) with (lam * (1 / 2 * (l + r))) by (field; lra).
      repeat split; nra.
  - assert (lr : l < r) by lra.
    assert (HL : lam * Rabs l <= 1) by (pose proof (Rmax_l (Rabs l) (Rabs r)); nra).
    assert (HR : lam * Rabs r <= 1) by (pose proof (Rmax_r (Rabs l) (Rabs r)); nra). clear Hs.
    destruct (Rlt_dec 0 l) as [p | p]; [|destruct (Rlt_dec r 0) as [q | q]]; unfold BurgersFlux.
    + replace (lam * (1 / 2 * l * l - 1 / 2 * l * l) / (r - l)) with 0 by (field; lra).
      replace (lam * (1 / 2 * r * r - 1 / 2 * l * l) / (r - l)) with (lam * (1 / 2 * (l + r))) by (field; lra).
      rewrite Rabs_right in HL, HR by lra. repeat split; nra.
    + replace (lam * (1 / 2 * r * r - 1 / 2 * r * r) / (r - l)) with 0 by (field; lra).
      replace (lam * (1 / 2 * l * l - 1 / 2 * r * r) / (r - l)) with (lam * - (1 / 2 * (l + r))) by (field; lra).
      rewrite Rabs_left in HL, HR by lra. repeat split; nra.
    + replace (lam * (1 / 2 * r * r - 1 / 2 * 0 * 0) / (r - l)) with (lam * (1 / 2 * (r * r)) / (r - l)) by (field; lra).
      replace (lam * (1 / 2 * l * l - 1 / 2 * 0 * 0) / (r - l)) with (lam * (1 / 2 * (l * l)) / (r - l)) by (field; lra).
      rewrite (Rabs_left1 l) in HL by lra. rewrite (Rabs_right r) in HR by lra.
      assert (0 <= r * r) by nra. assert (0 <= l * l) by nra.
      split; [apply quot_le0; nra|]. split; [apply quot_le0; nra|].
      replace (lam * (1 / 2 * (r * r)) / (r - l) + lam * (1 / 2 * (l * l)) / (r - l)) with ((lam * r * r + lam * - l * - l) / (2 * (r - l))) by (field; lra).
      apply coef_bound; nra.
Qed.

(** A cell both faces of which are stencils satisfies the CFL condition with its own velocity. *)
Lemma burgers_cell_speed lam a u b : 0 <= lam -> lam * bspeed a u <= 1 -> lam * bspeed u b <= 1 -> lam * Rabs u <= 1.
Proof.
  intros Hl H1 H2. unfold bspeed in *. destruct (Rlt_dec u a) as [s1 | s1].
  - destruct (Rlt_dec b u) as [s2 | s2].
    + destruct (Rle_dec 0 u).
      * rewrite (Rabs_right u) by lra. rewrite Rabs_right in H1 by lra. nra.
      * rewrite (Rabs_left u) by lra. rewrite (Rabs_left (1 / 2 * (u + b))) in H2 by lra. nra.
    + pose proof (Rmax_l (Rabs u) (Rabs b)). nra.
  - pose proof (Rmax_r (Rabs a) (Rabs u)). nra.
Qed.

Lemma burgers_coefC_shape lam l r : 0 <= lam -> lam * Rabs l <= 1 -> lam * Rabs r <= 1 ->
  0 <= coefC BurgersFlux bf lam l r /\ 0 <= coefD BurgersFlux bf lam l r /\
  (r <= 0 -> coefC BurgersFlux bf lam l r <= 1 / 2 * (1 - lam * - r)) /\
  (0 <= r -> coefC BurgersFlux bf lam l r <= 1 / 2 * (1 + lam * r)) /\
  (0 <= l -> coefD BurgersFlux bf lam l r <= 1 / 2 * (1 - lam * l)) /\
  (l <= 0 -> coefD BurgersFlux bf lam l r <= 1 / 2 * (1 + lam * - l)).
Proof.
  intros Hl HL HR.
  assert (S1 : lam * bspeed l r <= 1).
  { unfold bspeed. destruct (Rlt_dec r l).
    - assert (Rabs (1 / 2 * (l + r)) <= 1 / 2 * (Rabs l + Rabs r)).
      { rewrite Rabs_mult, (Rabs_right (1 / 2)) by lra. pose proof (Rabs_triang l r). lra. }
      nra.
    - unfold Rmax. destruct (Rle_dec (Rabs l) (Rabs r)); lra. }
  destruct (burgers_coefs lam l r Hl S1) as (C0 & D0 & _). split; [exact C0|]. split; [exact D0|]. clear C0 D0 S1.
  assert (Al := Rabs_pos l). assert (Ar := Rabs_pos r).
  assert (HL1 : - 1 <= lam * l <= 1). { split; [pose proof (Rle_abs (- l)); rewrite Rabs_Ropp in *; nra | pose proof (Rle_abs l); nra]. }
  assert (HR1 : - 1 <= lam * r <= 1). { split; [pose proof (Rle_abs (- r)); rewrite Rabs_Ropp in *; nra | pose proof (Rle_abs r); nra]. }
  clear HL HR Al Ar.
  unfold coefC, coefD. destruct (Req_EM_T l r) as [-> | ne]; [repeat split; intros; nra|].
  unfold GodunovFlux, BurgersRiemann. destruct (Rlt_dec r l) as [sh | ra]; cbv zeta.
  - destruct (Rlt_dec (1 / 2 * (l + r)) 0) as [neg | pos]; unfold BurgersFlux.
    + replace (lam * (1 / 2 * r * r - 1 / 2 * r * r) / (r - l)) with 0 by (field; lra).
      replace (lam * (1 / 2 * l * l - 1 / 2 * r * r) / (r - l)) with (lam * - (1 / 2 * (l + r))) by (field; lra).
      repeat split; intros; nra.
    + replace (lam * (1 / 2 * l * l - 1 / 2 * l * l) / (r - l)) with 0 by (field; lra).
      replace (lam * (1 / 2 * r * r - 1 / 2 * l * l) / (r - l)) with (lam * (1 / 2 * (l + r))) by (field; lra).
      repeat split; intros; nra.
  - assert (lr : l < r) by lra.
    destruct (Rlt_dec 0 l) as [p | p]; [|destruct (Rlt_dec r 0) as [q | q]]; unfold BurgersFlux.
    + replace (lam * (1 / 2 * l * l - 1 / 2 * l * l) / (r - l)) with 0 by (field; lra).
      replace (lam * (1 / 2 * r * r - 1 / 2 * l * l) / (r - l)) with (lam * (1 / 2 * (l + r))) by (field; lra).
      repeat split; intros; nra.
    + replace (lam * (1 / 2 * r * r - 1 / 2 * r * r) / (r - l)) with 0 by (field; lra).
      replace (lam * (1 / 2 * l * l - 1 / 2 * r * r) / (r - l)) with (lam * - (1 / 2 * (l + r))) by (field; lra).
      repeat split; intros; nra.
    + assert (P : lam * (1 / 2 * r * r - 1 / 2 * 0 * 0) / (r - l) <= 1 / 2 * (lam * r)).
      { replace (lam * (1 / 2 * r * r - 1 / 2 * 0 * 0) / (r - l)) with (1 / 2 * (lam * r) * (r / (r - l))) by (field; lra).
        assert (r / (r - l) <= 1) by (apply coef_bound; lra). assert (0 <= lam * r) by nra. set (x := r / (r - l)) in *. clearbody x. nra. }
      assert (Q : lam * (1 / 2 * l * l - 1 / 2 * 0 * 0) / (r - l) <= 1 / 2 * (lam * - l)).
      { replace (lam * (1 / 2 * l * l - 1 / 2 * 0 * 0) / (r - l)) with (1 / 2 * (lam * - l) * (- l / (r - l))) by (field; lra).
        assert (- l / (r - l) <= 1) by (apply coef_bound; lra). assert (0 <= lam * - l) by nra. set (x := - l / (r - l)) in *. clearbody x. nra. }
      repeat split; intros; try nra.
Qed.

Lemma convex3 C D a u b : 0 <= C -> 0 <= D -> C + D <= 1 ->
  min3 a u b <= u - C * (u - a) + D * (b - u) <= max3 a u b.
Proof.
  intros. unfold min3, max3.
  assert (M : Rmin (Rmin a u) b <= a /\ Rmin (Rmin a u) b <= u /\ Rmin (Rmin a u) b <= b).
  { pose proof (Rmin_l (Rmin a u) b). pose proof (Rmin_r (Rmin a u) b). pose proof (Rmin_l a u). pose proof (Rmin_r a u). lra. }
  assert (N : a <= Rmax (Rmax a u) b /\ u <= Rmax (Rmax a u) b /\ b <= Rmax (Rmax a u) b).
  { pose proof (Rmax_l (Rmax a u) b). pose proof (Rmax_r (Rmax a u) b). pose proof (Rmax_l a u). pose proof (Rmax_r a u). lra. }
  set (lo := Rmin (Rmin a u) b) in *. set (hi := Rmax (Rmax a u) b) in *. clearbody lo hi.
  replace (u - C * (u - a) + D * (b - u)) with ((1 - C - D) * u + C * a + D * b) by ring. split; nra.
Qed.

Lemma burgers_max lam a u b : 0 <= lam -> lam * Rabs a <= 1 -> lam * Rabs u <= 1 -> lam * Rabs b <= 1 ->
  min3 a u b <= u + lam * (bf a u - bf u b) <= max3 a u b.
Proof.
  intros Hl Ha Hu Hb.
  replace (u + lam * (bf a u - bf u b))
    with (u - coefC BurgersFlux bf lam a u * (u - a) + coefD BurgersFlux bf lam u b * (b - u)).
  2:{ rewrite (coefC_jump BurgersFlux bf lam burgers_consistent), (coefD_jump BurgersFlux bf lam burgers_consistent). ring. }
  destruct (burgers_coefC_shape lam a u Hl Ha Hu) as (C0 & _ & C1 & C2 & _).
  destruct (burgers_coefC_shape lam u b Hl Hu Hb) as (_ & D0 & _ & _ & D1 & D2).
  apply convex3; auto.
  destruct (Rle_dec 0 u) as [p | p].
  - specialize (C2 p). specialize (D1 p). lra.
  - specialize (C1 ltac:(lra)). specialize (D2 ltac:(lra)). lra.
Qed.

Lemma burgers_dt dt dx l r : 0 < dx -> 0 <= dt -> dt_at_most 1 dt (bdt dx l r) -> dt / dx * bspeed l r <= 1.
Proof.
  intros. unfold GodunovStableDt in *. rewrite burgers_speed in *. eapply dt_divide; eauto; try lra.
  rewrite <- burgers_speed. apply max_abs_ge0.
Qed.

Lemma burgers_cell_max g dt dx i : 0 < dx -> 0 <= dt ->
  (forall j, (i - 1 <= j <= i + 2)%Z -> dt_at_most 1 dt (bdt dx (g (j - 1)%Z) (g j))) ->
  between (min3 (g (i - 1)%Z) (g i) (g (i + 1)%Z)) (fv_update dt dx (face_fluxes bf g) g i) (max3 (g (i - 1)%Z) (g i) (g (i + 1)%Z)).
Proof.
  intros Hx Ht H. unfold between, fv_update, face_fluxes. replace (i + 1 - 1)%Z with i by lia.
  assert (L : 0 <= dt / dx) by (apply ratio_ge0; auto).
  pose proof (burgers_dt _ _ _ _ Hx Ht (H (i - 1)%Z ltac:(lia))) as H0.
  pose proof (burgers_dt _ _ _ _ Hx Ht (H i ltac:(lia))) as H1.
  pose proof (burgers_dt _ _ _ _ Hx Ht (H (i + 1)%Z ltac:(lia))) as H2.
  pose proof (burgers_dt _ _ _ _ Hx Ht (H (i + 2)%Z ltac:(lia))) as H3.
  replace (i + 1 - 1)%Z with i in * by lia. replace (i + 2 - 1)%Z with (i + 1)%Z in * by lia.
  apply burgers_max; auto; eapply burgers_cell_speed; eauto.
Qed.

Lemma burgers_window g dt dx a m : 0 < dx -> 0 <= dt ->
  (forall j, (a <= j <= a + Z.of_nat m + 1)%Z -> dt_at_most 1 dt (bdt dx (g (j - 1)%Z) (g j))) ->
  variation (fv_update dt dx (face_fluxes bf g) g) a m
  <= Rabs (g a - g (a - 1)%Z) + variation g a m + Rabs (g (a + Z.of_nat m + 1)%Z - g (a + Z.of_nat m)%Z).
Proof.
  intros Hx Ht H. assert (L : 0 <= dt / dx) by (apply ratio_ge0; auto).
  apply (harten_window (fun i => coefC BurgersFlux bf (dt / dx) (g (i - 1)%Z) (g i))
           (fun i => coefD BurgersFlux bf (dt / dx) (g (i - 1)%Z) (g i))).
  - intros i Hi. apply (conservation_incremental BurgersFlux bf (dt / dx) burgers_consistent).
    unfold fv_update, face_fluxes. replace (i + 1 - 1)%Z with i by lia. reflexivity.
  - intros i Hi. apply burgers_coefs; auto. apply burgers_dt; auto.
Qed.

(** From windows to whole patches with transmissive boundaries, for any scheme. *)
Section Patch.
Variables (nf : R -> R -> R) (stable : R -> R -> time_step) (dx : R).
Hypothesis window : forall g dt a m, 0 <= dt ->
  (forall j, (a <= j <= a + Z.of_nat m + 1)%Z -> dt_at_most 1 dt (stable (g (j - 1)%Z) (g j))) ->
  variation (fv_update dt dx (face_fluxes nf g) g) a m
  <= Rabs (g a - g (a - 1)%Z) + variation g a m + Rabs (g (a + Z.of_nat m + 1)%Z - g (a + Z.of_nat m)%Z).

Lemma patch_tv n u dt : (0 < n)%Z -> 0 <= dt ->
  (forall i, (0 <= i <= n)%Z -> dt_at_most 1 dt (stable (u (nearest n (i - 1))) (u (nearest n i)))) ->
  total_variation n (scalar_step nf dx n u dt) <= total_variation n u.
Proof.
  intros Hn Ht H. unfold total_variation, scalar_step.
  assert (W := window (transmissive n u) dt 0%Z (Z.to_nat (n - 1)) Ht).
  replace (0 + Z.of_nat (Z.to_nat (n - 1)))%Z with (n - 1)%Z in W by lia.
  rewrite !transmissive_nearest in W by lia. replace (n - 1 + 1)%Z with n in W by lia.
  replace (nearest n (0 - 1)) with 0%Z in W by (unfold nearest; lia). replace (nearest n 0) with 0%Z in W by (unfold nearest; lia).
  replace (nearest n n) with (n - 1)%Z in W by (unfold nearest; lia). replace (nearest n (n - 1)) with (n - 1)%Z in W by (unfold nearest; lia).
  rewrite !Rminus_diag_eq, Rabs_R0 in W by reflexivity.
  rewrite (variation_ext (transmissive n u) u) in W.
  2:{ intros i Hi. rewrite transmissive_nearest by lia. f_equal. unfold nearest. lia. }
  rewrite Rplus_0_l, Rplus_0_r in W. apply W. intros j Hj. rewrite !transmissive_nearest by lia. apply H. lia.
Qed.

Lemma patch_tv_steps n dts : (0 < n)%Z -> forall u,
  stable_steps (scalar_step nf dx n) 1 stable n dts u ->
  total_variation n (scalar_steps nf dx n dts u) <= total_variation n u.
Proof.
  intros Hn. unfold scalar_steps. induction dts as [|dt r IH]; intros u Hs; cbn [fold_left]; [lra|].
  destruct Hs as (Ht & Hd & Hr). eapply Rle_trans; [apply IH; auto | apply patch_tv; auto].
Qed.

Hypothesis maxp : forall g dt i, 0 <= dt ->
  (forall j, (i - 1 <= j <= i + 2)%Z -> dt_at_most 1 dt (stable (g (j - 1)%Z) (g j))) ->
  between (min3 (g (i - 1)%Z) (g i) (g (i + 1)%Z)) (fv_update dt dx (face_fluxes nf g) g i) (max3 (g (i - 1)%Z) (g i) (g (i + 1)%Z)).

Lemma patch_max n u dt : (0 < n)%Z -> 0 <= dt ->
  (forall i, (0 <= i <= n)%Z -> dt_at_most 1 dt (stable (u (nearest n (i - 1))) (u (nearest n i)))) ->
  forall i, (0 <= i < n)%Z ->
  between (min3 (u (nearest n (i - 1))) (u i) (u (nearest n (i + 1))))
          (scalar_step nf dx n u dt i)
          (max3 (u (nearest n (i - 1))) (u i) (u (nearest n (i + 1)))).
Proof.
  intros Hn Ht H i Hi. unfold scalar_step.
  assert (W := maxp (transmissive n u) dt i Ht). rewrite !transmissive_nearest in W by lia.
  replace (nearest n i) with i in W by (unfold nearest; lia). apply W.
  intros j Hj. rewrite !transmissive_nearest by lia.
  destruct (Z.eq_dec j (-1)) as [-> | ne].
  - specialize (H 0%Z ltac:(lia)). replace (nearest n (-1 - 1)) with (nearest n (0 - 1)) by (unfold nearest; lia).
    replace (nearest n (-1)) with (nearest n 0) by (unfold nearest; lia). exact H.
  - destruct (Z.eq_dec j (n + 1)) as [-> | ne2].
    + specialize (H n ltac:(lia)). replace (nearest n (n + 1 - 1)) with (n - 1)%Z by (unfold nearest; lia).
      replace (nearest n (n + 1)) with (n - 1)%Z by (unfold nearest; lia).
      replace (nearest n (n - 1)) with (n - 1)%Z in H by (unfold nearest; lia).
      replace (nearest n n) with (n - 1)%Z in H by (unfold nearest; lia). exact H.
    + apply H. lia.
Qed.

Lemma min3_ge a b c lo : lo <= a -> lo <= b -> lo <= c -> lo <= min3 a b c.
Proof. intros; unfold min3; repeat apply Rmin_glb; auto. Qed.
Lemma max3_le a b c hi : a <= hi -> b <= hi -> c <= hi -> max3 a b c <= hi.
Proof. intros; unfold max3; repeat apply Rmax_lub; auto. Qed.

Lemma patch_bounds_steps n dts lo hi : (0 < n)%Z -> forall u,
  stable_steps (scalar_step nf dx n) 1 stable n dts u ->
  (forall i, (0 <= i < n)%Z -> between lo (u i) hi) ->
  forall i, (0 <= i < n)%Z -> between lo (scalar_steps nf dx n dts u i) hi.
Proof.
  intros Hn. unfold scalar_steps. induction dts as [|dt r IH]; intros u Hs Hu i Hi; cbn [fold_left]; [auto|].
  destruct Hs as (Ht & Hd & Hr). apply IH; auto. intros j Hj.
  destruct (patch_max n u dt Hn Ht Hd j Hj) as [A B].
  assert (N : forall k, between lo (u (nearest n k)) hi) by (intros k; apply Hu; unfold nearest; lia).
  split; [eapply Rle_trans; [|apply A] | eapply Rle_trans; [apply B|]].
  - apply min3_ge; [apply N | apply Hu; auto | apply N].
  - apply max3_le; [apply N | apply Hu; auto | apply N].
Qed.
End Patch.

(** ** Advection *)
Notation af v := (GodunovFlux (AdvectionFlux v) (AdvectionRiemann v)).
Notation adt v := (GodunovStableDt (AdvectionSignals v)).

Lemma advection_consistent v u : af v u u = AdvectionFlux v u.
Proof. unfold GodunovFlux, AdvectionRiemann. destruct (Rlt_dec 0 v); reflexivity. Qed.

Lemma advection_dt v dt dx l r : 0 < dx -> 0 <= dt -> dt_at_most 1 dt (adt v dx l r) -> dt / dx * Rabs v <= 1.
Proof.
  intros Hx Ht H. unfold GodunovStableDt, AdvectionSignals in H.
  replace (max_abs [v]) with (Rabs v) in H by (unfold max_abs; cbn; rewrite Rmax_right; [auto | apply Rabs_pos]).
  apply dt_divide; auto; try lra. apply Rabs_pos.
Qed.

Lemma advection_form v lam a u b :
  u + lam * (af v a u - af v u b)
  = u - Rmax 0 (lam * v) * (u - a) + Rmax 0 (- (lam * v)) * (b - u) \/ lam < 0.
Proof.
  destruct (Rlt_dec lam 0); [right; auto | left].
  unfold GodunovFlux, AdvectionRiemann, AdvectionFlux. destruct (Rlt_dec 0 v).
  - rewrite Rmax_right by nra. rewrite Rmax_left by nra. ring.
  - rewrite Rmax_left by nra. rewrite Rmax_right by nra. ring.
Qed.

Lemma advection_sum x : Rmax 0 x + Rmax 0 (- x) = Rabs x.
Proof. unfold Rmax, Rabs. destruct (Rle_dec 0 x), (Rle_dec 0 (- x)), (Rcase_abs x); lra. Qed.

Lemma advection_cell_max v g dt dx i : 0 < dx -> 0 <= dt -> dt / dx * Rabs v <= 1 ->
  between (min3 (g (i - 1)%Z) (g i) (g (i + 1)%Z)) (fv_update dt dx (face_fluxes (af v) g) g i) (max3 (g (i - 1)%Z) (g i) (g (i + 1)%Z)).
Proof.
  intros Hx Ht H. unfold between, fv_update, face_fluxes. replace (i + 1 - 1)%Z with i by lia.
  assert (L : 0 <= dt / dx) by (apply ratio_ge0; auto).
  destruct (advection_form v (dt / dx) (g (i - 1)%Z) (g i) (g (i + 1)%Z)) as [-> | C]; [|lra].
  apply convex3; try apply Rmax_l. rewrite advection_sum, Rabs_mult, (Rabs_right (dt / dx)); lra.
Qed.

Lemma advection_window v g dt dx a m : 0 < dx -> 0 <= dt -> dt / dx * Rabs v <= 1 ->
  variation (fv_update dt dx (face_fluxes (af v) g) g) a m
  <= Rabs (g a - g (a - 1)%Z) + variation g a m + Rabs (g (a + Z.of_nat m + 1)%Z - g (a + Z.of_nat m)%Z).
Proof.
  intros Hx Ht H. assert (L : 0 <= dt / dx) by (apply ratio_ge0; auto).
  apply (harten_window (fun _ => Rmax 0 (dt / dx * v)) (fun _ => Rmax 0 (- (dt / dx * v)))).
  - intros i Hi. unfold incremental, fv_update, face_fluxes. replace (i + 1 - 1)%Z with i by lia.
    destruct (advection_form v (dt / dx) (g (i - 1)%Z) (g i) (g (i + 1)%Z)) as [-> | C]; [reflexivity | lra].
  - intros i Hi. split; [apply Rmax_l|]. split; [apply Rmax_l|]. rewrite advection_sum, Rabs_mult, (Rabs_right (dt / dx)); lra.
Qed.

Lemma advection_shift v dt dx g i : 0 < dx -> dt * Rabs v = dx ->
  fv_update dt dx (face_fluxes (af v) g) g i = if Rlt_dec 0 v then g (i - 1)%Z else g (i + 1)%Z.
Proof.
  intros Hx E. unfold fv_update, face_fluxes, GodunovFlux, AdvectionRiemann, AdvectionFlux.
  replace (i + 1 - 1)%Z with i by lia. destruct (Rlt_dec 0 v).
  - rewrite Rabs_right in E by lra. replace (dt / dx * (g (i - 1)%Z * v - g i * v)) with (dt * v / dx * (g (i - 1)%Z - g i)) by (field; lra).
    rewrite E. field. lra.
  - rewrite Rabs_left1 in E by lra. replace (dt / dx * (g i * v - g (i + 1)%Z * v)) with (dt * - v / dx * (g (i + 1)%Z - g i)) by (field; lra).
    rewrite E. field. lra.
Qed.

(** n steps at CFL one move the data by n cells. *)
Lemma advection_shift_steps v dt dx n k : 0 < dx -> (0 < n)%Z -> dt * Rabs v = dx -> forall u i, (0 <= i < n)%Z ->
  scalar_steps (af v) dx n (repeat dt k) u i = u (nearest n (if Rlt_dec 0 v then i - Z.of_nat k else i + Z.of_nat k)%Z).
Proof.
  intros Hx Hn E. unfold scalar_steps. induction k; intros u i Hi; cbn [repeat fold_left].
  - change (Z.of_nat 0) with 0%Z. f_equal. unfold nearest. destruct (Rlt_dec 0 v); lia.
  - rewrite IHk by auto. unfold scalar_step.
    rewrite advection_shift, !transmissive_nearest by (auto; unfold nearest; lia).
    destruct (Rlt_dec 0 v); f_equal; unfold nearest; lia.
Qed.
