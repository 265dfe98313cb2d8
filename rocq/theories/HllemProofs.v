(** Lemmas for C36, C62, C63. *)
From Coq Require Import List Reals Lra Lia Bool FunctionalExtensionality.
From Verif Require Import GasModel GasSpec GasProofs RotationProofs HllemModel HllemSpec.
Import ListNotations.
Local Open Scope R_scope.

Lemma avg_eq : lane_avg = scalar_avg.
Proof.
  apply functional_extensionality; intros a. apply functional_extensionality; intros b.
  apply functional_extensionality; intros x. apply functional_extensionality; intros y.
  unfold lane_avg, scalar_avg, Rdiv. ring.
Qed.

Lemma avg_same s x : 0 < s -> scalar_avg s s x x = x.
Proof. intros. unfold scalar_avg. field. lra. Qed.

Lemma hlle_same bL bR db f q : db = bR - bL -> 0 < db -> hlle bL bR db f f q q = f.
Proof. intros -> H. unfold hlle. field. lra. Qed.

Lemma hlle_list_same bL bR db f q : db = bR - bL -> 0 < db -> length f = length q -> hlle_list bL bR db f f q q = f.
Proof.
  intros E H. revert q. induction f as [|x f IH]; intros [|y q] L; cbn in *; try lia; auto.
  rewrite hlle_same by auto. f_equal. apply IH. lia.
Qed.

Lemma add_at_length d x a : length (add_at d x a) = length a.
Proof. revert d. induction a; intros [|d]; cbn; auto. Qed.

Lemma vmap2_same f a : (forall x, f x x = x) -> vmap2 f a a = a.
Proof. intros H. induction a; cbn; auto. rewrite H, IHa. reflexivity. Qed.
Lemma vmap2_diff a : vmap2 (fun x y => y - x) a a = map (fun _ => 0) a.
Proof. induction a; cbn; auto. rewrite IHa. f_equal. ring. Qed.
Lemma nth_zeros {A} i (a : list A) : nth i (map (fun _ => 0) a) 0 = 0.
Proof. revert i. induction a; intros [|i]; cbn; auto. Qed.

(** Equal states: everything but the flux of the state drops out. *)
Lemma data_same Msq q d : 0 < Msq -> 0 < m_rho q -> 0 < m_a q -> length (m_mom q) = length (m_mom q) ->
  let D := compute_data scalar_avg Msq q q d in
  h_hlle D = MixFlux Msq q d /\ h_dRho D = 0 /\ h_dRhoU D = map (fun _ => 0) (m_mom q) /\ h_dRhoE D = 0 /\
  h_roeU D = velocities q /\ (forall dim, alpha2 dim Msq D = 0).
Proof.
  intros HM Hr Ha _ D.
  assert (Hs : 0 < sqrt (m_rho q)) by (apply sqrt_lt_R0; auto).
  assert (HMi : 0 < 1 / sqrt Msq) by (apply Rmult_lt_0_compat; [lra | apply Rinv_0_lt_compat, sqrt_lt_R0; auto]).
  assert (Edb : forall sL sR a b, sL <= a -> b <= sR -> a < b -> 0 < Rmax sR 0 - Rmin sL 0).
  { intros sL sR a b H1 H2 H3. pose proof (Rmax_l sR 0). pose proof (Rmin_l sL 0). lra. }
  split; [|split; [|split; [|split; [|split]]]].
  - unfold D, compute_data. cbn [h_hlle].
    set (sL := Rmin (_ - Rmax _ _ * _) _). set (sR := Rmax _ (_ + Rmax _ _ * _)).
    assert (Hdb : 0 < Rmax sR 0 - Rmin sL 0).
    { apply (Edb _ _ (nth d (m_mom q) 0 / m_rho q - Rmax (m_a q) (m_a q) * (1 / sqrt Msq)) (nth d (m_mom q) 0 / m_rho q + Rmax (m_a q) (m_a q) * (1 / sqrt Msq))).
      - apply Rmin_l. - apply Rmax_r.
      - assert (0 < Rmax (m_a q) (m_a q) * (1 / sqrt Msq)); [|lra]. apply Rmult_lt_0_compat; [|auto].
        pose proof (Rmax_l (m_a q) (m_a q)). lra. }
    destruct (Rlt_dec 0 (Rmax sR 0 - Rmin sL 0)); [|contradiction].
    unfold MixFlux. cbn [f_rho f_mom f_E f_Y]. rewrite !hlle_same by auto.
    rewrite !hlle_list_same by (auto; rewrite ?add_at_length, map_length; auto). reflexivity.
  - unfold D, compute_data. cbn [h_dRho]. ring.
  - unfold D, compute_data. cbn [h_dRhoU]. apply vmap2_diff.
  - unfold D, compute_data. cbn [h_dRhoE]. ring.
  - unfold D, compute_data. cbn [h_roeU]. apply vmap2_same. intros. apply avg_same. auto.
  - intros dim. unfold alpha2.
    assert (E1 : h_dRho D = 0) by (unfold D, compute_data; cbn [h_dRho]; ring).
    assert (E2 : h_dRhoU D = map (fun _ => 0) (m_mom q)) by (unfold D, compute_data; cbn [h_dRhoU]; apply vmap2_diff).
    assert (E3 : h_dRhoE D = 0) by (unfold D, compute_data; cbn [h_dRhoE]; ring).
    rewrite E1, E2, E3, !nth_zeros. destruct (Nat.leb 2 dim), (Nat.leb 3 dim); ring.
Qed.

Lemma scalars_same lar upw D fr q hl : h_dRho D = 0 ->
  (lar = true -> forall Y, upw fr Y Y = fr * Y) -> hl = map (fun y => fr / m_rho q * y) (m_Y q) ->
  scalars lar upw D fr 0 q q hl (m_Y q) (m_Y q) = hl.
Proof.
  intros HD HU ->. induction (m_Y q) as [|y ys IH]; cbn; auto. rewrite IH. f_equal.
  destruct lar.
  - rewrite HU by auto. unfold Rdiv. ring.
  - unfold plain_scalar. rewrite HD. ring.
Qed.

(** Dimension and direction by cases, momentum lists made explicit. *)
Ltac dims dim d :=
  destruct dim as [|[|[|[|dim]]]]; try lia; destruct d as [|[|[|d]]]; try lia.

Ltac lists H :=
  repeat match type of H with
  | length ?l = S _ => destruct l as [|? l]; cbn [length] in H; [discriminate H | apply eq_add_S in H]
  | length ?l = O => destruct l; [clear H | discriminate H]
  end.

Ltac eqs := repeat match goal with
  | |- ?x = ?x => reflexivity
  | |- mkF _ _ _ _ = mkF _ _ _ _ => f_equal
  | |- _ :: _ = _ :: _ => f_equal
  end.

Lemma mixflux_euler dim Msq q d : (1 <= dim <= 3)%nat -> (d < dim)%nat -> length (m_mom q) = dim -> m_rho q <> 0 ->
  MixFlux Msq q d = euler_flux Msq q d.
Proof.
  intros Hdim Hd Hl Hr. destruct q as [rho mom E Y p a g]. cbn [m_mom m_rho] in *. unfold MixFlux, euler_flux. cbn [m_rho m_mom m_p m_E m_Y].
  dims dim d; lists Hl; cbn; unfold Rdiv; f_equal; try (field; assumption); repeat (f_equal; try (field; assumption)); try ring; auto.
Qed.

Lemma strip_fields lar Msq q d : m_rho (strip lar Msq q d) = m_rho q /\ m_a (strip lar Msq q d) = m_a q /\
  m_Y (strip lar Msq q d) = m_Y q /\ m_p (strip lar Msq q d) = m_p q /\ m_gamma (strip lar Msq q d) = m_gamma q.
Proof. unfold strip. destruct lar; cbn; repeat split. Qed.

Lemma finish_same lar upw dim Msq q d D dens momx : (1 <= dim <= 3)%nat -> (d < dim)%nat -> length (m_mom q) = dim -> 0 < m_rho q ->
  let l := strip lar Msq q d in
  h_hlle D = MixFlux Msq l d -> h_dRho D = 0 -> h_dRhoU D = map (fun _ => 0) (m_mom l) ->
  alpha2 dim Msq D = 0 -> (lar = true -> forall Y, upw dens Y Y = dens * Y) ->
  dens = f_rho (MixFlux Msq l d) -> momx = nth d (f_mom (MixFlux Msq l d)) 0 ->
  finish lar upw dim Msq q q l l d D dens momx = euler_flux Msq q d.
Proof.
  intros Hdim Hd Hl Hr l HF HR HU HA Hup Hdens Hmom. unfold finish. cbv zeta. rewrite HA, HF, HR, HU.
  rewrite Rmult_0_r.
  assert (HY : scalars lar upw D dens 0 l l (f_Y (MixFlux Msq l d)) (m_Y l) (m_Y l) = f_Y (MixFlux Msq l d)).
  { apply scalars_same; auto. unfold MixFlux. cbn [f_Y]. rewrite Hdens. unfold MixFlux. cbn [f_rho]. reflexivity. }
  rewrite HY. rewrite <- (mixflux_euler dim) by (auto; lra). clear HY.
  destruct lar.
  - unfold eKinR. cbn [andb]. rewrite !Hup by auto. rewrite Hdens, Hmom. unfold l, strip, MixFlux, eKinR, velocities.
    destruct q as [rho mom E Y p a g]. cbn [m_mom m_rho m_p m_E m_Y f_rho f_mom f_E f_Y] in *.
    dims dim d; lists Hl; cbn; unfold squaredNorm; cbn; eqs; unfold Rdiv; field; lra.
  - rewrite Hdens, Hmom. unfold l, strip, MixFlux. clear HF HA.
    destruct q as [rho mom E Y p a g]. cbn [m_mom m_rho m_p m_E m_Y f_rho f_mom f_E f_Y] in *.
    dims dim d; lists Hl; cbn; eqs; try ring.
Qed.

Lemma strip_length lar Msq q d : (d < length (m_mom q))%nat -> length (m_mom (strip lar Msq q d)) = length (m_mom q).
Proof.
  unfold strip. destruct lar; cbn [m_mom]; auto. generalize (m_mom q) as m. clear q. intros m. revert d.
  induction m as [|x m IH]; intros [|d] H; cbn in *; try lia; [rewrite map_length; auto | rewrite IH; lia].
Qed.

Lemma lane_consistent lar dim Msq q d : (1 <= dim <= 3)%nat -> (d < dim)%nat -> 0 < Msq -> mix_admissible dim Msq q ->
  HllemFlux_lane lar dim Msq q q d = euler_flux Msq q d.
Proof.
  intros Hdim Hd HM (Hl & Hr & Hp & Ha & Hg & HE). unfold HllemFlux_lane. cbv zeta. rewrite avg_eq.
  set (l := strip lar Msq q d). destruct (strip_fields lar Msq q d) as (F1 & F2 & F3 & F4 & F5). fold l in F1, F2, F3, F4, F5.
  destruct (data_same Msq l d HM) as (D1 & D2 & D3 & D4 & D5 & D6); try (rewrite ?F1, ?F2; auto).
  apply finish_same; auto.
  - intros -> Y. unfold lane_upwind. destruct (Rlt_dec _ _); reflexivity.
  - fold l. rewrite D1, D6. ring.
  - fold l. rewrite D1, D6. ring.
Qed.

Lemma scalar_upwind_same f Y : 0 <= f -> scalar_upwind f Y Y = f * Y.
Proof. intros H. unfold scalar_upwind. destruct (Rlt_dec 0 f); [ring|]. assert (f = 0) by lra. subst. ring. Qed.

Lemma strip_normal lar Msq q d : (d < length (m_mom q))%nat -> nth d (m_mom (strip lar Msq q d)) 0 = nth d (m_mom q) 0.
Proof.
  unfold strip. destruct lar; cbn [m_mom]; auto. generalize (m_mom q) as m. clear q. intros m. revert d.
  induction m as [|x m IH]; intros [|d] H; cbn in *; try lia; auto. apply IH. lia.
Qed.

Lemma scalar_consistent lar dim Msq q d old : (1 <= dim <= 2)%nat -> (d < dim)%nat -> 0 < Msq -> mix_admissible dim Msq q ->
  (lar = true -> 0 <= nth d (m_mom q) 0) ->
  HllemFlux lar dim Msq q q d old = euler_flux Msq q d.
Proof.
  intros Hdim Hd HM (Hl & Hr & Hp & Ha & Hg & HE) Hpos. unfold HllemFlux. cbv zeta.
  replace (Nat.eqb dim 3) with false by (symmetry; apply Nat.eqb_neq; lia).
  set (l := strip lar Msq q d). destruct (strip_fields lar Msq q d) as (F1 & F2 & F3 & F4 & F5). fold l in F1, F2, F3, F4, F5.
  destruct (data_same Msq l d HM) as (D1 & D2 & D3 & D4 & D5 & D6); try (rewrite ?F1, ?F2; auto).
  assert (Ed : f_rho (MixFlux Msq l d) = nth d (m_mom q) 0) by (unfold MixFlux; cbn [f_rho]; apply strip_normal; lia).
  apply finish_same; auto; try lia.
  - intros E Y. rewrite D1, D6, Ed. apply scalar_upwind_same. specialize (Hpos E). lra.
  - fold l. rewrite D1, D6. ring.
  - fold l. rewrite D1, D6. ring.
Qed.

(** With Larrouturou and a negative mass flux the scalars get the wrong sign. *)
Lemma scalars_wrong dim Msq q d old : (1 <= dim <= 2)%nat -> (d < dim)%nat -> 0 < Msq -> mix_admissible dim Msq q ->
  nth d (m_mom q) 0 < 0 ->
  f_Y (HllemFlux true dim Msq q q d old) = map Ropp (f_Y (euler_flux Msq q d)).
Proof.
  intros Hdim Hd HM (Hl & Hr & Hp & Ha & Hg & HE) Hneg. unfold HllemFlux. cbv zeta.
  replace (Nat.eqb dim 3) with false by (symmetry; apply Nat.eqb_neq; lia).
  set (l := strip true Msq q d). destruct (strip_fields true Msq q d) as (F1 & F2 & F3 & F4 & F5). fold l in F1, F2, F3, F4, F5.
  destruct (data_same Msq l d HM) as (D1 & D2 & D3 & D4 & D5 & D6); try (rewrite ?F1, ?F2; auto).
  assert (Ed : f_rho (MixFlux Msq l d) = nth d (m_mom q) 0) by (unfold MixFlux; cbn [f_rho]; apply strip_normal; lia).
  unfold finish. cbn [f_Y]. rewrite D1, D6, Ed. unfold MixFlux, euler_flux. cbn [f_Y].
  replace (nth d (m_mom q) 0 - h_b (compute_data scalar_avg Msq l l d) * h_delta (compute_data scalar_avg Msq l l d) * 0 * 1)
    with (nth d (m_mom q) 0) by ring.
  rewrite F3. generalize (h_b (compute_data scalar_avg Msq l l d) * h_delta (compute_data scalar_avg Msq l l d) * 0) as ba2.
  generalize (compute_data scalar_avg Msq l l d) as D. generalize (nth d (m_mom l) 0 / m_rho l) as v.
  clearbody l. clear -F1 Hneg. intros v D ba2. rewrite map_map. induction (m_Y q) as [|y ys IH]; cbn [map scalars]; auto. rewrite IH. f_equal. rewrite F1.
  unfold scalar_upwind. destruct (Rlt_dec 0 _); [lra|]. unfold Rdiv. ring.
Qed.

(** Scalar and vectorised versions. *)
Lemma upwind_agree f a b : 0 <= f -> scalar_upwind f a b = lane_upwind f a b.
Proof. intros H. unfold scalar_upwind, lane_upwind. destruct (Rlt_dec 0 f); [ring|]. assert (f = 0) by lra. subst. ring. Qed.

Lemma scalars_agree lar D f ba2 l r hl yl yr : (lar = true -> 0 <= f) ->
  scalars lar scalar_upwind D f ba2 l r hl yl yr = scalars lar lane_upwind D f ba2 l r hl yl yr.
Proof.
  intros H. revert yl yr. induction hl as [|h hl IH]; intros [|a yl] [|b yr]; cbn; auto. rewrite IH. f_equal.
  destruct lar; auto. apply upwind_agree. auto.
Qed.

Lemma agree lar dim Msq left right d old : (1 <= dim <= 2)%nat -> (d < dim)%nat ->
  (lar = true -> 0 <= f_rho (HllemFlux_lane lar dim Msq left right d)) ->
  HllemFlux lar dim Msq left right d old = HllemFlux_lane lar dim Msq left right d.
Proof.
  intros Hdim Hd. unfold HllemFlux, HllemFlux_lane. cbv zeta. rewrite avg_eq.
  replace (Nat.eqb dim 3) with false by (symmetry; apply Nat.eqb_neq; lia).
  rewrite Rmult_1_r. set (l := strip lar Msq left d). set (r := strip lar Msq right d).
  set (D := compute_data scalar_avg Msq l r d). set (dens := f_rho (h_hlle D) - _). set (momx := nth d _ 0 - _).
  unfold finish at 1. cbn [f_rho]. intros H. unfold finish. cbv zeta. rewrite (scalars_agree lar D dens) by auto.
  destruct lar; [|reflexivity]. rewrite !upwind_agree by auto. reflexivity.
Qed.

(** Contact and shear waves. *)
Lemma avg_zero a b : scalar_avg a b 0 0 = 0.
Proof. unfold scalar_avg, Rdiv. ring. Qed.

Lemma convex x y a b : 0 < x -> 0 < y -> scalar_avg x y a b * scalar_avg x y a b <= scalar_avg x y (a * a) (b * b).
Proof.
  intros Hx Hy. unfold scalar_avg.
  assert (E : (x * (a * a) + y * (b * b)) / (x + y) - (x * a + y * b) / (x + y) * ((x * a + y * b) / (x + y)) =
              x * y / ((x + y) * (x + y)) * ((a - b) * (a - b))) by (field; lra).
  assert (0 <= x * y / ((x + y) * (x + y)) * ((a - b) * (a - b))); [|lra].
  apply Rmult_le_pos; [|apply Rle_0_sqr]. apply Rlt_le, Rmult_lt_0_compat; [apply Rmult_lt_0_compat; auto|].
  apply Rinv_0_lt_compat, Rmult_lt_0_compat; lra.
Qed.

Lemma avg_lin x y a b c k : 0 < x -> 0 < y -> scalar_avg x y (a + k * b) (c + k * b) = scalar_avg x y a c + k * b.
Proof. intros. unfold scalar_avg. field. lra. Qed.
Lemma avg_pos x y a b : 0 < x -> 0 < y -> 0 < a -> 0 < b -> 0 < scalar_avg x y a b.
Proof.
  intros. unfold scalar_avg. apply Rmult_lt_0_compat; [|apply Rinv_0_lt_compat; lra].
  apply Rplus_lt_0_compat; apply Rmult_lt_0_compat; auto.
Qed.

(** The shear identity: the jump of the kinetic energy is matched by the two wave contributions. *)
Lemma shear x y a b : 0 < x -> 0 < y ->
  1 / 2 * (y * y * (b * b) - x * x * (a * a)) - scalar_avg x y a b * (y * y * b - x * x * a)
  + 1 / 2 * (scalar_avg x y a b * scalar_avg x y a b) * (y * y - x * x) = 0.
Proof. intros. unfold scalar_avg. field. lra. Qed.

Definition sq_sum (x y : R) (a b : list R) : R := squaredNorm (vmap2 (scalar_avg x y) a b).

Lemma convex_list x y a b : 0 < x -> 0 < y -> length a = length b ->
  sq_sum x y a b <= scalar_avg x y (squaredNorm a) (squaredNorm b).
Proof.
  intros Hx Hy. revert b. unfold sq_sum, squaredNorm. induction a as [|u a IH]; intros [|v b] L; cbn in *; try discriminate.
  - rewrite avg_zero. lra.
  - injection L as L. specialize (IH b L). pose proof (convex x y u v Hx Hy). unfold scalar_avg in *.
    replace ((x * (u * u + dot a a) + y * (v * v + dot b b)) / (x + y))
      with ((x * (u * u) + y * (v * v)) / (x + y) + (x * dot a a + y * dot b b) / (x + y)) by (unfold Rdiv; ring). lra.
Qed.

Lemma shear_list x y a b : 0 < x -> 0 < y -> length a = length b ->
  1 / 2 * (y * y * squaredNorm b - x * x * squaredNorm a)
  - dot (vmap2 (scalar_avg x y) a b) (vmap2 (fun p q => q - p) (map (fun v => x * x * v) a) (map (fun v => y * y * v) b))
  + 1 / 2 * sq_sum x y a b * (y * y - x * x) = 0.
Proof.
  intros Hx Hy. revert b. unfold sq_sum, squaredNorm. induction a as [|u a IH]; intros [|v b] L; cbn in *; try discriminate.
  - ring.
  - injection L as L. specialize (IH b L). pose proof (shear x y u v Hx Hy). lra.
Qed.

Lemma nth_hlle_list bL bR db fL fR qL qR i : length fL = length qL -> length fR = length qL -> length qR = length qL ->
  (i < length qL)%nat -> nth i (hlle_list bL bR db fL fR qL qR) 0 = hlle bL bR db (nth i fL 0) (nth i fR 0) (nth i qL 0) (nth i qR 0).
Proof.
  revert fL fR qR i. induction qL as [|x qL IH]; intros [|a fL] [|b fR] [|y qR] [|i] L1 L2 L3 H; cbn in *; try lia; auto.
  apply IH; lia.
Qed.

Lemma nth_vmap2 f a b i : length a = length b -> (i < length a)%nat -> nth i (vmap2 f a b) 0 = f (nth i a 0) (nth i b 0).
Proof. revert b i. induction a as [|x a IH]; intros [|y b] [|i] L H; cbn in *; try lia; auto. apply IH; lia. Qed.

Lemma vmap2_length f a b : length a = length b -> length (vmap2 f a b) = length a.
Proof. revert b. induction a as [|x a IH]; intros [|y b] L; cbn in *; try lia. rewrite IH; lia. Qed.

Lemma nth_add_at d x a i : (i < length a)%nat -> nth i (add_at d x a) 0 = nth i a 0 + (if Nat.eqb i d then x else 0).
Proof.
  revert d i. induction a as [|y a IH]; intros [|d] [|i] H; cbn in *; try lia; try ring. apply IH. lia.
Qed.

Lemma nth_scaled k a i : nth i (map (fun m => k * m) a) 0 = k * nth i a 0.
Proof. revert i. induction a as [|x a IH]; intros [|i]; cbn; auto; ring. Qed.
Lemma nth_velocities q i : nth i (velocities q) 0 = nth i (m_mom q) 0 / m_rho q.
Proof. unfold velocities. generalize (m_mom q) as a. intros a. revert i. induction a as [|x a IH]; intros [|i]; cbn; auto; unfold Rdiv; ring. Qed.

Lemma hlle_resting S f x y : 0 < S -> hlle (- S) S (S - - S) f f x y = f + - S / 2 * (y - x).
Proof. intros. unfold hlle. field. lra. Qed.

Lemma hlle_list_scalars S a b : 0 < S -> length a = length b ->
  hlle_list (- S) S (S - - S) (map (fun y => 0 * y) a) (map (fun y => 0 * y) b) a b = vmap2 (fun x y => - S / 2 * (y - x)) a b.
Proof.
  intros HS. revert b. induction a as [|x a IH]; intros [|y b] L; cbn in *; try lia; auto.
  rewrite IH by lia. f_equal. replace (0 * y) with (0 * x) by ring. rewrite hlle_resting by auto. ring.
Qed.

Lemma velocities_back q : m_rho q <> 0 -> map (fun v => m_rho q * v) (velocities q) = m_mom q.
Proof.
  intros H. unfold velocities. rewrite map_map. rewrite <- (map_id (m_mom q)) at 2. apply map_ext. intros. field. auto.
Qed.

Section contact.
Context (dim : nat) (Msq : R) (l r : mstate) (d : nat).
Hypothesis HM : 0 < Msq.
Hypothesis Hd : (d < dim)%nat.
Hypothesis Al : mix_admissible dim Msq l.
Hypothesis Ar : mix_admissible dim Msq r.
Hypothesis Hc : resting_contact d l r.

Let D := compute_data scalar_avg Msq l r d.
Let x := sqrt (m_rho l).
Let y := sqrt (m_rho r).

Lemma c_x : 0 < x. Proof. destruct Al as (_ & H & _). apply sqrt_lt_R0. exact H. Qed.
Lemma c_y : 0 < y. Proof. destruct Ar as (_ & H & _). apply sqrt_lt_R0. exact H. Qed.
Lemma c_xx : x * x = m_rho l. Proof. destruct Al as (_ & H & _). apply sqrt_sqrt. lra. Qed.
Lemma c_yy : y * y = m_rho r. Proof. destruct Ar as (_ & H & _). apply sqrt_sqrt. lra. Qed.
Lemma c_len : length (velocities l) = length (velocities r).
Proof. destruct Al as (H & _), Ar as (G & _). unfold velocities. rewrite !map_length. congruence. Qed.

Lemma energy_of q : mix_admissible dim Msq q -> m_E q = Msq * (1 / 2 * m_rho q * squaredNorm (velocities q)) + m_p q / (m_gamma q - 1).
Proof.
  intros (_ & _ & _ & _ & _ & E). rewrite E. unfold kinetic, squaredNorm. rewrite dot_self. unfold velocities. f_equal. field.
Qed.


Lemma avg_const k : scalar_avg x y k k = k.
Proof. pose proof c_x. pose proof c_y. unfold scalar_avg. field. lra. Qed.

Lemma c_gm1 : h_gm1 D = m_gamma l - 1.
Proof. destruct Hc as (_ & _ & _ & G & _). unfold D, compute_data. cbn [h_gm1]. fold x y. rewrite <- G, avg_const. reflexivity. Qed.

Lemma enthalpy_of q : mix_admissible dim Msq q ->
  exists e, 0 < e /\ (m_E q + m_p q) / m_rho q = e + Msq / 2 * squaredNorm (velocities q).
Proof.
  intros A. pose proof (energy_of q A) as E. destruct A as (_ & Hr & Hp & _ & Hg & _).
  exists (m_gamma q / (m_gamma q - 1) * m_p q / m_rho q). split.
  - unfold Rdiv. repeat apply Rmult_lt_0_compat; try apply Rinv_0_lt_compat; lra.
  - rewrite E. field. lra.
Qed.

Lemma c_roe_positive : 0 < h_roeH D - 1 / 2 * Msq * squaredNorm (h_roeU D).
Proof.
  unfold D, compute_data. cbn [h_roeH h_roeU]. fold x y.
  destruct (enthalpy_of l Al) as (e & He & ->). destruct (enthalpy_of r Ar) as (f & Hf & ->).
  pose proof (convex_list x y _ _ c_x c_y c_len) as C. unfold sq_sum in C.
  pose proof (avg_pos x y e f c_x c_y He Hf) as P.
  replace (scalar_avg x y (e + Msq / 2 * squaredNorm (velocities l)) (f + Msq / 2 * squaredNorm (velocities r)))
    with (scalar_avg x y e f + Msq / 2 * scalar_avg x y (squaredNorm (velocities l)) (squaredNorm (velocities r)))
    by (unfold scalar_avg, Rdiv; ring).
  apply (Rmult_le_compat_l (Msq / 2)) in C; lra.
Qed.

Lemma c_roeA2 : h_roeA2 D = h_gm1 D * (h_roeH D - 1 / 2 * Msq * squaredNorm (h_roeU D)).
Proof. reflexivity. Qed.
Lemma c_gm1_pos : 0 < h_gm1 D. Proof. rewrite c_gm1. destruct Al as (_ & _ & _ & _ & H & _). lra. Qed.
Lemma c_roeA2_pos : 0 < h_roeA2 D.
Proof. rewrite c_roeA2. apply Rmult_lt_0_compat; [exact c_gm1_pos | exact c_roe_positive]. Qed.

Lemma c_roeU0 : nth d (h_roeU D) 0 = 0.
Proof.
  destruct Al as (L & _). destruct Hc as (Z1 & Z2 & _). unfold D, compute_data. cbn [h_roeU].
  rewrite nth_vmap2 by (rewrite ?c_len; auto; unfold velocities; rewrite map_length; destruct Ar as (L' & _); lia).
  rewrite !nth_velocities, Z1, Z2. unfold Rdiv. rewrite !Rmult_0_l. apply avg_zero.
Qed.

Lemma c_waves : exists S, 0 < S /\ h_bL D = - S /\ h_bR D = S /\ h_db D = S - - S /\ h_delta D = 1.
Proof.
  pose proof c_roeU0 as U. unfold D, compute_data in U. cbn [h_roeU] in U.
  pose proof c_roeA2_pos as A2. unfold D, compute_data in A2. cbn [h_roeA2] in A2.
  destruct Hc as (Z1 & Z2 & _).
  unfold D, compute_data. cbn [h_bL h_bR h_db h_delta]. cbv zeta. rewrite Z1, Z2, U. cbv zeta in A2.
  set (A := sqrt (_ * _)). assert (HA : 0 < A) by (apply sqrt_lt_R0; exact A2). clearbody A.
  assert (Hi : 0 < 1 / sqrt Msq) by (apply Rmult_lt_0_compat; [lra | apply Rinv_0_lt_compat, sqrt_lt_R0; auto]).
  set (i := 1 / sqrt Msq) in *. clearbody i.
  assert (HX : 0 < Rmax (m_a l) (m_a r)) by (pose proof (Rmax_l (m_a l) (m_a r)); destruct Al as (_ & _ & _ & G & _); lra).
  pose proof (Rmult_lt_0_compat _ _ HX Hi) as HP. pose proof (Rmult_lt_0_compat _ _ HA Hi) as HQ.
  set (P := Rmax (m_a l) (m_a r) * i) in *. set (Q := A * i) in *. clearbody P Q.
  assert (E0 : forall t, 0 / t = 0) by (intros; unfold Rdiv; ring). rewrite !E0.
  set (S := Rmax P Q). assert (HS : 0 < S) by (unfold S; pose proof (Rmax_l P Q); lra).
  assert (EL : Rmin (0 - P) (0 - Q) = - S).
  { unfold S, Rmin, Rmax. destruct (Rle_dec (0 - P) (0 - Q)), (Rle_dec P Q); lra. }
  assert (ER : Rmax (0 + Q) (0 + P) = S).
  { unfold S, Rmax. destruct (Rle_dec (0 + Q) (0 + P)), (Rle_dec P Q); lra. }
  rewrite EL, ER. clearbody S.
  assert (EL' : Rmin (- S) 0 = - S) by (apply Rmin_left; lra).
  assert (ER' : Rmax S 0 = S) by (apply Rmax_left; lra).
  exists S. rewrite EL', ER'. destruct (Rlt_dec 0 (S - - S)); [|lra].
  repeat split; auto. replace (1 / 2 * (S + - S)) with 0 by ring. rewrite Rabs_R0. field. lra.
Qed.

Lemma c_hlle : exists S, 0 < S /\ h_b D = - S / 2 /\ h_delta D = 1 /\
  f_rho (h_hlle D) = h_b D * h_dRho D /\ f_E (h_hlle D) = h_b D * h_dRhoE D /\
  (forall i, (i < dim)%nat -> nth i (f_mom (h_hlle D)) 0 = (if Nat.eqb i d then m_p l / Msq else 0) + h_b D * nth i (h_dRhoU D) 0) /\
  f_Y (h_hlle D) = vmap2 (fun p q => h_b D * (q - p)) (m_Y l) (m_Y r) /\ h_bL D = - S /\ h_bR D = S /\ h_db D = S - - S.
Proof.
  destruct c_waves as (S & HS & E1 & E2 & E3 & E4). exists S. destruct Hc as (Z1 & Z2 & Ep & Eg & EY).
  assert (Eb : h_b D = - S / 2).
  { change (h_b D) with (h_bL D * h_bR D / h_db D). rewrite E1, E2, E3. field. lra. }
  assert (E0 : forall t, 0 / t = 0) by (intros; unfold Rdiv; ring).
  rewrite Eb. repeat (split; [assumption || reflexivity|]).
  assert (Eh : h_hlle D = (fun bL bR db => mkF (hlle bL bR db (f_rho (MixFlux Msq l d)) (f_rho (MixFlux Msq r d)) (m_rho l) (m_rho r))
     (hlle_list bL bR db (f_mom (MixFlux Msq l d)) (f_mom (MixFlux Msq r d)) (m_mom l) (m_mom r))
     (hlle bL bR db (f_E (MixFlux Msq l d)) (f_E (MixFlux Msq r d)) (m_E l) (m_E r))
     (hlle_list bL bR db (f_Y (MixFlux Msq l d)) (f_Y (MixFlux Msq r d)) (m_Y l) (m_Y r))) (h_bL D) (h_bR D) (h_db D)) by reflexivity.
  rewrite E1, E2, E3 in Eh. cbv beta in Eh.
  rewrite Eh. cbn [f_rho f_mom f_E f_Y]. unfold MixFlux. cbn [f_rho f_mom f_E f_Y]. rewrite Z1, Z2, !E0.
  split; [rewrite hlle_resting by auto; change (h_dRho D) with (m_rho r - m_rho l); ring|].
  split; [rewrite !Rmult_0_l, hlle_resting by auto; change (h_dRhoE D) with (m_E r - m_E l); ring|].
  split; [|split; [apply hlle_list_scalars; auto | auto]].
  destruct Al as (Ll & _), Ar as (Lr & _). intros i Hi.
  rewrite nth_hlle_list by (rewrite ?add_at_length, ?map_length; lia). rewrite !nth_add_at by (rewrite map_length; lia).
  rewrite !nth_scaled, !Rmult_0_l, !Rplus_0_l, <- Ep. rewrite hlle_resting by auto.
  change (h_dRhoU D) with (vmap2 (fun p q => q - p) (m_mom l) (m_mom r)). rewrite nth_vmap2 by lia. unfold Rdiv.
  destruct (Nat.eqb i d); ring.
Qed.

(** The jump of the energy is kinetic. *)
Lemma c_dE : h_dRhoE D = Msq * (1 / 2 * (m_rho r * squaredNorm (velocities r) - m_rho l * squaredNorm (velocities l))).
Proof.
  change (h_dRhoE D) with (m_E r - m_E l). rewrite (energy_of l Al), (energy_of r Ar). destruct Hc as (_ & _ & Ep & Eg & _).
  rewrite Ep, Eg. ring.
Qed.

Lemma c_shear : 1 / 2 * (m_rho r * squaredNorm (velocities r) - m_rho l * squaredNorm (velocities l))
  - dot (h_roeU D) (h_dRhoU D) + 1 / 2 * squaredNorm (h_roeU D) * h_dRho D = 0.
Proof.
  pose proof (shear_list x y _ _ c_x c_y c_len) as H. rewrite c_xx, c_yy in H.
  rewrite !velocities_back in H by (destruct Al as (_ & G1 & _), Ar as (_ & G2 & _); lra). exact H.
Qed.

Lemma c_dRhoU_normal : nth d (h_dRhoU D) 0 = 0.
Proof.
  destruct Al as (Ll & _), Ar as (Lr & _), Hc as (Z1 & Z2 & _).
  change (h_dRhoU D) with (vmap2 (fun p q => q - p) (m_mom l) (m_mom r)). rewrite nth_vmap2 by lia. rewrite Z1, Z2. ring.
Qed.
Lemma c_roeU_length : length (h_roeU D) = dim.
Proof.
  change (h_roeU D) with (vmap2 (scalar_avg x y) (velocities l) (velocities r)). rewrite vmap2_length by apply c_len.
  unfold velocities. rewrite map_length. apply Al.
Qed.
Lemma c_dRhoU_length : length (h_dRhoU D) = dim.
Proof.
  destruct Al as (Ll & _), Ar as (Lr & _).
  change (h_dRhoU D) with (vmap2 (fun p q => q - p) (m_mom l) (m_mom r)). rewrite vmap2_length; lia.
Qed.

(** alpha_2 is the jump of the density when Msq = 1. *)
Lemma c_alpha2 : (1 <= dim <= 3)%nat -> Msq = 1 -> alpha2 dim Msq D = h_dRho D.
Proof.
  intros Hdim EM. pose proof c_shear as S. pose proof c_dE as E. pose proof c_roeA2 as A. pose proof c_roe_positive as P.
  pose proof c_gm1_pos as G. pose proof c_roeU_length as LU. pose proof c_dRhoU_length as LM.
  unfold alpha2. rewrite A. rewrite EM in *.
  assert (Ed : dot (h_roeU D) (h_dRhoU D) = nth 0 (h_roeU D) 0 * nth 0 (h_dRhoU D) 0
    + (if Nat.leb 2 dim then nth 1 (h_roeU D) 0 * nth 1 (h_dRhoU D) 0 else 0)
    + (if Nat.leb 3 dim then nth 2 (h_roeU D) 0 * nth 2 (h_dRhoU D) 0 else 0)).
  { destruct (h_roeU D) as [|a [|b [|c [|]]]], (h_dRhoU D) as [|a' [|b' [|c' [|]]]]; cbn in LU, LM; try lia;
      rewrite <- LU; cbn; ring. }
  set (k := h_gm1 D / _). set (q := squaredNorm (h_roeU D)) in *.
  assert (Hk : k * (h_roeH D - 1 / 2 * q) = 1) by (unfold k; field; lra).
  transitivity (k * ((h_roeH D - q) * h_dRho D + dot (h_roeU D) (h_dRhoU D) - h_dRhoE D)).
  { rewrite Ed. destruct (Nat.leb 2 dim), (Nat.leb 3 dim); ring. }
  replace ((h_roeH D - q) * h_dRho D + dot (h_roeU D) (h_dRhoU D) - h_dRhoE D)
    with ((h_roeH D - 1 / 2 * q) * h_dRho D) by (rewrite E; lra).
  rewrite <- Rmult_assoc, Hk. ring.
Qed.
End contact.

Lemma strip_admissible lar dim Msq q d : (1 <= dim <= 3)%nat -> (d < dim)%nat -> mix_admissible dim Msq q ->
  mix_admissible dim Msq (strip lar Msq q d).
Proof.
  intros Hdim Hd (Hl & Hr & Hp & Ha & Hg & HE). destruct (strip_fields lar Msq q d) as (F1 & F2 & F3 & F4 & F5).
  unfold mix_admissible. rewrite F1, F2, F4, F5. repeat (split; [rewrite ?strip_length; auto; lia|]).
  destruct lar; [|exact HE]. unfold strip. cbn [m_E m_mom]. rewrite HE. unfold eKinR, kinetic, velocities.
  destruct q as [rho mom E Y p a g]. cbn [m_mom m_rho m_p m_E m_Y m_gamma] in *.
  dims dim d; lists Hl; cbn; unfold squaredNorm; cbn; field; lra.
Qed.

Lemma strip_contact lar Msq left right d : (d < length (m_mom left))%nat -> (d < length (m_mom right))%nat ->
  resting_contact d left right -> resting_contact d (strip lar Msq left d) (strip lar Msq right d).
Proof.
  intros H1 H2 (Z1 & Z2 & Ep & Eg & EY). unfold resting_contact. rewrite !strip_normal by auto.
  destruct (strip_fields lar Msq left d) as (F1 & F2 & F3 & F4 & F5). destruct (strip_fields lar Msq right d) as (G1 & G2 & G3 & G4 & G5).
  rewrite F3, F4, F5, G3, G4, G5. auto.
Qed.

Lemma scalars_contact lar upw D n l r a b : (forall x y, upw 0 x y = 0) -> h_delta D = 1 -> length a = n -> length b = n ->
  scalars lar upw D 0 (h_b D * h_delta D * h_dRho D) l r (vmap2 (fun p q => h_b D * (q - p)) a b) a b = repeat 0 n.
Proof.
  intros HU Hdel. revert a b. induction n as [|n IH]; intros [|x a] [|y b] L1 L2; cbn in *; try lia; auto.
  rewrite IH by lia. f_equal. destruct lar; [apply HU|]. unfold plain_scalar. rewrite Hdel. ring.
Qed.

Lemma keep_only_zero d a i : (d < length a)%nat -> nth d a 0 = 0 -> nth i (keep_only d a) 0 = 0.
Proof.
  revert d i. induction a as [|x a IH]; intros [|d] [|i] H E; cbn in *; try lia; auto. - apply nth_zeros. - apply IH; auto; lia.
Qed.

Lemma all_zero a : (forall i, nth i a 0 = 0) -> a = repeat 0 (length a).
Proof.
  induction a as [|x a IH]; intros H; cbn; auto. f_equal; [exact (H 0%nat)|]. apply IH. intros i. exact (H (S i)).
Qed.

Definition placed (dim d : nat) (x : R) : list R :=
  match dim with 1%nat => [x] | 2%nat => place2 d x 0 | _ => place3 d x 0 0 end.

Lemma finish_contact lar upw dim left right d momx : (1 <= dim <= 3)%nat -> (d < dim)%nat ->
  mix_admissible dim 1 left -> mix_admissible dim 1 right -> resting_contact d left right -> (forall x y, upw 0 x y = 0) ->
  let l := strip lar 1 left d in let r := strip lar 1 right d in let D := compute_data scalar_avg 1 l r d in
  finish lar upw dim 1 left right l r d D (f_rho (h_hlle D) - h_b D * h_delta D * alpha2 dim 1 D) momx =
  mkF 0 (placed dim d momx) 0 (repeat 0 (length (m_Y left))).
Proof.
  intros Hdim Hd Al Ar Hc HU l r D.
  assert (Al' : mix_admissible dim 1 l) by (apply strip_admissible; auto).
  assert (Ar' : mix_admissible dim 1 r) by (apply strip_admissible; auto).
  assert (Hc' : resting_contact d l r) by (apply strip_contact; auto; destruct Al, Ar; lia).
  pose proof (c_alpha2 dim 1 l r d Rlt_0_1 Hd Al' Ar' Hc' Hdim eq_refl) as A. fold D in A.
  destruct (c_hlle dim 1 l r d Rlt_0_1 Hd Al' Ar' Hc') as (S & HS & Eb & Edel & Er & EE & EM & EY & _). fold D in Eb, Edel, Er, EE, EM, EY.
  pose proof (c_dE dim 1 l r d Al' Ar' Hc') as dE. fold D in dE.
  pose proof (c_shear dim 1 l r d Al' Ar') as SH. fold D in SH.
  pose proof (c_roeU0 dim 1 l r d Hd Al' Ar' Hc') as U0. fold D in U0.
  pose proof (c_dRhoU_normal dim 1 l r d Hd Al' Ar' Hc') as M0. fold D in M0.
  pose proof (c_roeU_length dim 1 l r d Al' Ar') as LU. fold D in LU.
  pose proof (c_dRhoU_length dim 1 l r d Hd Al' Ar') as LM. fold D in LM.
  assert (Ed : f_rho (h_hlle D) - h_b D * h_delta D * alpha2 dim 1 D = 0) by (rewrite A, Er, Edel; ring).
  rewrite Ed. unfold finish. cbv zeta. rewrite A.
  assert (LY : length (m_Y l) = length (m_Y left)) by (unfold l; destruct (strip_fields lar 1 left d) as (_ & _ & -> & _); auto).
  assert (LY' : length (m_Y r) = length (m_Y left)) by (destruct Hc' as (_ & _ & _ & _ & G); lia).
  assert (Hlar : lar = true -> forall i, (i < dim)%nat -> nth i (h_roeU D) 0 = 0 /\ nth i (h_dRhoU D) 0 = 0).
  { intros ->. intros i Hi. assert (El : nth i (m_mom l) 0 = 0).
    { apply keep_only_zero; [destruct Al; lia | apply Hc]. }
    assert (E2 : nth i (m_mom r) 0 = 0).
    { apply keep_only_zero; [destruct Ar; lia | apply Hc]. }
    destruct Al' as (L1 & _), Ar' as (L2 & _). split.
    - unfold D, compute_data. cbn [h_roeU]. rewrite nth_vmap2 by (unfold velocities; rewrite !map_length; lia).
      rewrite !nth_velocities, El, E2. unfold Rdiv. rewrite !Rmult_0_l. apply avg_zero.
    - unfold D, compute_data. cbn [h_dRhoU]. rewrite nth_vmap2 by lia. rewrite El, E2. ring. }
  rewrite Rmult_1_l in dE. rewrite <- dE in SH.
  f_equal; [| |rewrite EY; apply scalars_contact; auto].
  - assert (Ht : forall i, (i < dim)%nat -> i <> d -> (if lar then upw 0 (nth i (velocities left) 0) (nth i (velocities right) 0) else
      nth i (f_mom (h_hlle D)) 0 - h_b D * h_delta D * h_dRho D * nth i (h_roeU D) 0 -
      h_b D * h_delta D * (- nth i (h_roeU D) 0 * h_dRho D + 1 * nth i (h_dRhoU D) 0) * 1) = 0).
    { intros i Hi Hne. destruct lar; [apply HU|]. rewrite (EM i Hi). apply Nat.eqb_neq in Hne. rewrite Hne, Edel. ring. }
    clear - Ht Hdim Hd. dims dim d; cbn [placed]; auto; unfold next_dir; cbn [Nat.modulo Nat.divmod Nat.add Nat.sub fst snd];
      rewrite ?Ht by lia; reflexivity.
  - rewrite EE, Edel. clear - HU SH U0 M0 LU LM Hlar Hdim Hd.
    unfold squaredNorm in *. destruct (h_roeU D) as [|u0 [|u1 [|u2 [|]]]], (h_dRhoU D) as [|v0 [|v1 [|v2 [|]]]]; cbn in LU, LM; try lia;
      subst dim; cbn [dot] in *;
      destruct d as [|[|[|d]]]; try lia; unfold next_dir; cbn [Nat.modulo Nat.divmod Nat.add Nat.sub fst snd nth] in *; subst;
      try (destruct lar; [rewrite HU; pose proof (Hlar eq_refl 0%nat ltac:(lia)) as (W0 & V0);
        try (pose proof (Hlar eq_refl 1%nat ltac:(lia)) as (W1 & V1));
        try (pose proof (Hlar eq_refl 2%nat ltac:(lia)) as (W2 & V2)); cbn [nth] in *; subst|]);
      match type of SH with ?a = 0 => apply (by_multiple (h_b D) a _ _ SH) end; field.
Qed.

Lemma lane_zero x y : lane_upwind 0 x y = 0. Proof. unfold lane_upwind. ring. Qed.
Lemma scalar_zero x y : scalar_upwind 0 x y = 0. Proof. unfold scalar_upwind. ring. Qed.

Lemma placed_pressure dim d p n : (1 <= dim <= 3)%nat -> (d < dim)%nat ->
  mkF 0 (placed dim d p) 0 (repeat 0 n) = pressure_flux dim d p n.
Proof. intros. unfold pressure_flux. f_equal. dims dim d; reflexivity. Qed.

(** The value of flux.momentum[ix], with the velocity component [c] as factor of alpha_2. *)
Lemma normal_momentum lar dim left right d c : (1 <= dim <= 3)%nat -> (d < dim)%nat ->
  mix_admissible dim 1 left -> mix_admissible dim 1 right -> resting_contact d left right ->
  let D := compute_data scalar_avg 1 (strip lar 1 left d) (strip lar 1 right d) d in
  exists S, 0 < S /\ nth d (f_mom (h_hlle D)) 0 - h_b D * h_delta D * alpha2 dim 1 D * nth c (h_roeU D) 0
                     = m_p left + S / 2 * (m_rho right - m_rho left) * nth c (h_roeU D) 0.
Proof.
  intros Hdim Hd Al Ar Hc D. set (l := strip lar 1 left d) in *. set (r := strip lar 1 right d) in *.
  assert (Al' : mix_admissible dim 1 l) by (apply strip_admissible; auto).
  assert (Ar' : mix_admissible dim 1 r) by (apply strip_admissible; auto).
  assert (Hc' : resting_contact d l r) by (apply strip_contact; auto; destruct Al, Ar; lia).
  pose proof (c_alpha2 dim 1 l r d Rlt_0_1 Hd Al' Ar' Hc' Hdim eq_refl) as A. fold D in A.
  destruct (c_hlle dim 1 l r d Rlt_0_1 Hd Al' Ar' Hc') as (S & HS & Eb & Edel & Er & EE & EM & EY & _). fold D in Eb, Edel, Er, EE, EM, EY.
  pose proof (c_dRhoU_normal dim 1 l r d Hd Al' Ar' Hc') as M0. fold D in M0.
  exists S. split; auto. rewrite (EM d Hd), M0, Nat.eqb_refl, A, Eb, Edel.
  assert (Ep : m_p l = m_p left) by (unfold l; apply strip_fields). rewrite Ep.
  assert (Er' : h_dRho D = m_rho right - m_rho left).
  { change (h_dRho D) with (m_rho r - m_rho l). unfold l, r. destruct (strip_fields lar 1 left d) as (-> & _).
    destruct (strip_fields lar 1 right d) as (-> & _). reflexivity. }
  rewrite Er'. field.
Qed.

Lemma roeU_normal lar dim left right d : (1 <= dim <= 3)%nat -> (d < dim)%nat ->
  mix_admissible dim 1 left -> mix_admissible dim 1 right -> resting_contact d left right ->
  nth d (h_roeU (compute_data scalar_avg 1 (strip lar 1 left d) (strip lar 1 right d) d)) 0 = 0.
Proof.
  intros Hdim Hd Al Ar Hc. apply (c_roeU0 dim); auto; try (apply strip_admissible; auto).
  apply strip_contact; auto; destruct Al, Ar; lia.
Qed.

Lemma roeU_stripped dim left right d i : (i < dim)%nat -> (d < dim)%nat ->
  length (m_mom left) = dim -> length (m_mom right) = dim -> resting_contact d left right ->
  nth i (h_roeU (compute_data scalar_avg 1 (strip true 1 left d) (strip true 1 right d) d)) 0 = 0.
Proof.
  intros Hi Hd L R (Z1 & Z2 & _).
  unfold compute_data. cbn [h_roeU].
  rewrite nth_vmap2 by (unfold velocities; rewrite !map_length, ?strip_length; rewrite ?strip_length; lia).
  rewrite !nth_velocities. unfold strip. cbn [m_mom m_rho]. rewrite !keep_only_zero by (auto; lia).
  unfold Rdiv. rewrite !Rmult_0_l. apply avg_zero.
Qed.

Lemma contact_scalar lar dim left right d old : (1 <= dim <= 2)%nat -> (d < dim)%nat ->
  mix_admissible dim 1 left -> mix_admissible dim 1 right -> resting_contact d left right ->
  HllemFlux lar dim 1 left right d old = pressure_flux dim d (m_p left) (length (m_Y left)).
Proof.
  intros Hdim Hd Al Ar Hc. unfold HllemFlux. cbv zeta. replace (Nat.eqb dim 3) with false by (symmetry; apply Nat.eqb_neq; lia).
  rewrite Rmult_1_r. rewrite finish_contact; auto using scalar_zero; try lia.
  destruct (normal_momentum lar dim left right d d) as (S & _ & ->); auto; try lia.
  rewrite (roeU_normal lar dim) by (auto; lia). rewrite Rmult_0_r, Rplus_0_r. apply placed_pressure; lia.
Qed.

Lemma contact_lane lar dim left right d : (1 <= dim <= 3)%nat -> (d < dim)%nat -> (dim = 3%nat -> lar = true) ->
  mix_admissible dim 1 left -> mix_admissible dim 1 right -> resting_contact d left right ->
  HllemFlux_lane lar dim 1 left right d = pressure_flux dim d (m_p left) (length (m_Y left)).
Proof.
  intros Hdim Hd H3 Al Ar Hc. unfold HllemFlux_lane. cbv zeta. rewrite avg_eq.
  rewrite finish_contact; auto using lane_zero; try lia.
  set (c := if Nat.eqb dim 3 then next_dir dim d else d).
  destruct (normal_momentum lar dim left right d c) as (S & _ & ->); auto; try lia.
  assert (E : nth c (h_roeU (compute_data scalar_avg 1 (strip lar 1 left d) (strip lar 1 right d) d)) 0 = 0).
  { unfold c. destruct (Nat.eqb dim 3) eqn:E3.
    - apply Nat.eqb_eq in E3. rewrite (H3 E3). apply (roeU_stripped dim); auto; try apply Al; try apply Ar.
      unfold next_dir. apply Nat.mod_upper_bound. lia.
    - apply (roeU_normal lar dim); auto. }
  rewrite E, Rmult_0_r, Rplus_0_r. apply placed_pressure; lia.
Qed.

(** Three dimensions, vectorised, without Larrouturou: the normal momentum flux is off by a multiple of the
    tangential velocity. *)
Lemma contact_lane_3d left right d : (d < 3)%nat ->
  mix_admissible 3 1 left -> mix_admissible 3 1 right -> resting_contact d left right ->
  exists S, 0 < S /\ HllemFlux_lane false 3 1 left right d =
    pressure_flux 3 d (m_p left + S / 2 * (m_rho right - m_rho left) *
      scalar_avg (sqrt (m_rho left)) (sqrt (m_rho right)) (nth (next_dir 3 d) (velocities left) 0) (nth (next_dir 3 d) (velocities right) 0))
      (length (m_Y left)).
Proof.
  intros Hd Al Ar Hc. unfold HllemFlux_lane. cbv zeta. rewrite avg_eq.
  rewrite finish_contact; auto using lane_zero; try lia. cbn [Nat.eqb].
  destruct (normal_momentum false 3 left right d (next_dir 3 d)) as (S & HS & ->); auto; try lia.
  exists S. split; auto. rewrite placed_pressure by lia. f_equal. f_equal. f_equal.
  unfold compute_data. cbn [h_roeU]. cbn [strip]. apply nth_vmap2.
  - unfold velocities. rewrite !map_length. destruct Al, Ar. lia.
  - unfold velocities. rewrite map_length. destruct Al as (-> & _). unfold next_dir. apply Nat.mod_upper_bound. lia.
Qed.

(** Msq other than 1: l23 lacks the factor. *)
Lemma mass_flux_msq Msq rhoL rhoR v E1 E2 Y1 Y2 p a1 a2 g old :
  let left := mkM rhoL [0; rhoL * v] E1 Y1 p a1 g in let right := mkM rhoR [0; rhoR * v] E2 Y2 p a2 g in
  0 < Msq -> mix_admissible 2 Msq left -> mix_admissible 2 Msq right -> length Y1 = length Y2 ->
  exists c, 0 < c /\ f_rho (HllemFlux false 2 Msq left right 0 old) = c * (v * v) * (rhoR - rhoL) * (1 - Msq) /\
    f_rho (HllemFlux_lane false 2 Msq left right 0) = c * (v * v) * (rhoR - rhoL) * (1 - Msq).
Proof.
  intros left right HM Al Ar LY.
  assert (Hc : resting_contact 0 left right) by (repeat split; auto).
  destruct (c_hlle 2 Msq left right 0 HM ltac:(lia) Al Ar Hc) as (S & HS & Eb & Edel & Er & _).
  pose proof (c_roe_positive 2 Msq left right 0 HM Al Ar) as P.
  pose proof (c_gm1_pos 2 Msq left right 0 Al Ar Hc) as G. pose proof (c_dE 2 Msq left right 0 Al Ar Hc) as dE.
  pose proof (c_roeA2 Msq left right 0) as A2.
  set (D := compute_data scalar_avg Msq left right 0) in *.
  assert (Hr1 : 0 < rhoL) by apply Al. assert (Hr2 : 0 < rhoR) by apply Ar.
  assert (H1 : 0 < sqrt rhoL) by (apply sqrt_lt_R0; auto). assert (H2 : 0 < sqrt rhoR) by (apply sqrt_lt_R0; auto).
  assert (EU : h_roeU D = [0; v]).
  { unfold D, compute_data. cbn. unfold scalar_avg. f_equal; [|f_equal]; field; lra. }
  assert (EM : h_dRhoU D = [0; v * (rhoR - rhoL)]).
  { unfold D, compute_data. cbn. f_equal; [|f_equal]; ring. }
  assert (Ed : h_dRho D = rhoR - rhoL) by reflexivity.
  assert (dE' : h_dRhoE D = Msq / 2 * (v * v) * (rhoR - rhoL)).
  { rewrite dE. cbn. unfold squaredNorm. cbn. field. lra. }
  rewrite EU in *. unfold squaredNorm in P, A2. cbn [dot] in P, A2.
  assert (Al2 : alpha2 2 Msq D = (rhoR - rhoL) + h_gm1 D / h_roeA2 D * (v * v) * (1 - Msq) * (rhoR - rhoL)).
  { unfold alpha2. rewrite EU, EM, Ed, dE', A2. unfold squaredNorm. cbn [dot nth Nat.leb]. field. split; lra. }
  exists (S / 2 * (h_gm1 D / h_roeA2 D)). split.
  - apply Rmult_lt_0_compat; [lra|]. apply Rmult_lt_0_compat; auto. apply Rinv_0_lt_compat. rewrite A2.
    apply Rmult_lt_0_compat; auto.
  - split.
    + change (f_rho (HllemFlux false 2 Msq left right 0 old)) with (f_rho (h_hlle D) - h_b D * h_delta D * alpha2 2 Msq D * 1).
      rewrite Er, Eb, Edel, Al2, Ed. field. intros Z. rewrite Z in A2. assert (0 < h_gm1 D * (h_roeH D - 1 / 2 * Msq * (0 * 0 + (v * v + 0)))) by (apply Rmult_lt_0_compat; auto). lra.
    + unfold HllemFlux_lane. cbv zeta. rewrite avg_eq. cbn [strip]. fold D. unfold finish. cbn [f_rho].
      rewrite Er, Eb, Edel, Al2, Ed. field. intros Z. rewrite Z in A2. assert (0 < h_gm1 D * (h_roeH D - 1 / 2 * Msq * (0 * 0 + (v * v + 0)))) by (apply Rmult_lt_0_compat; auto). lra.
Qed.

(** Scalars with the treatment of Larrouturou. *)
Lemma nth_scalars upw D f ba2 l r hl a b k : length hl = length a -> length b = length a -> (k < length a)%nat ->
  nth k (scalars true upw D f ba2 l r hl a b) 0 = upw f (nth k a 0 / m_rho l) (nth k b 0 / m_rho r).
Proof.
  revert hl b k. induction a as [|x a IH]; intros [|h hl] [|y b] [|k] L1 L2 H; cbn in *; try lia; auto. apply IH; lia.
Qed.

Lemma hlle_list_length bL bR db fL fR qL qR : length fL = length qL -> length fR = length qL -> length qR = length qL ->
  length (hlle_list bL bR db fL fR qL qR) = length qL.
Proof.
  revert fL fR qR. induction qL as [|x qL IH]; intros [|a fL] [|b fR] [|y qR] L1 L2 L3; cbn in *; try lia. rewrite IH; lia.
Qed.

Lemma f_Y_length avg Msq l r d : length (m_Y r) = length (m_Y l) -> length (f_Y (h_hlle (compute_data avg Msq l r d))) = length (m_Y l).
Proof. intros H. unfold compute_data. cbn [h_hlle f_Y]. apply hlle_list_length; unfold MixFlux; cbn [f_Y]; rewrite ?map_length; auto. Qed.

Lemma lane_scalar_flux dim Msq left right d k : length (m_Y right) = length (m_Y left) -> (k < length (m_Y left))%nat ->
  nth k (f_Y (HllemFlux_lane true dim Msq left right d)) 0 =
  lane_upwind (f_rho (HllemFlux_lane true dim Msq left right d)) (nth k (m_Y left) 0 / m_rho left) (nth k (m_Y right) 0 / m_rho right).
Proof.
  intros L H. unfold HllemFlux_lane. cbv zeta. unfold finish. cbn [f_Y f_rho].
  rewrite nth_scalars; cbn [strip m_Y]; auto. rewrite f_Y_length; auto.
Qed.

Lemma scalar_scalar_flux dim Msq left right d old k : length (m_Y right) = length (m_Y left) -> (k < length (m_Y left))%nat ->
  nth k (f_Y (HllemFlux true dim Msq left right d old)) 0 =
  scalar_upwind (f_rho (HllemFlux true dim Msq left right d old)) (nth k (m_Y left) 0 / m_rho left) (nth k (m_Y right) 0 / m_rho right).
Proof.
  intros L H. unfold HllemFlux. cbv zeta. unfold finish. cbn [f_Y f_rho].
  rewrite nth_scalars; cbn [strip m_Y]; auto. rewrite f_Y_length; auto.
Qed.

(** The upwinded update is a convex combination. *)
Lemma upwind_bounds rho f g y0 y1 y2 lo hi : 0 < rho + f - g -> Rmax g 0 + Rmax (- f) 0 <= rho ->
  lo <= y0 <= hi -> lo <= y1 <= hi -> lo <= y2 <= hi ->
  lo <= (rho * y1 + lane_upwind f y0 y1 - lane_upwind g y1 y2) / (rho + f - g) <= hi.
Proof.
  intros Hp Ho H0 H1 H2.
  assert (B : lo * (rho + f - g) <= rho * y1 + lane_upwind f y0 y1 - lane_upwind g y1 y2 <= hi * (rho + f - g)).
  { unfold lane_upwind. revert Ho. unfold Rmax.
    destruct (Rle_dec g 0), (Rle_dec (- f) 0), (Rlt_dec 0 f), (Rlt_dec 0 g); intros Ho; try lra;
      try (split; nra). }
  split; [apply (Rmult_le_reg_r (rho + f - g)) | apply (Rmult_le_reg_r (rho + f - g))]; auto;
    unfold Rdiv; rewrite Rmult_assoc, Rinv_l, Rmult_1_r; lra.
Qed.

(** The same flow on both sides: mass flux of the flow whatever the scalars. *)
Lemma same_flow dim Msq rho mom E Y1 Y2 p a g d old : (1 <= dim <= 2)%nat -> (d < dim)%nat -> 0 < Msq ->
  mix_admissible dim Msq (mkM rho mom E Y1 p a g) ->
  f_rho (HllemFlux true dim Msq (mkM rho mom E Y1 p a g) (mkM rho mom E Y2 p a g) d old) = nth d mom 0.
Proof.
  intros Hdim Hd HM (Hl & Hr & Hp & Ha & Hg & HE). cbn in Hl, Hr, Ha.
  change (f_rho (HllemFlux true dim Msq (mkM rho mom E Y1 p a g) (mkM rho mom E Y2 p a g) d old))
    with (f_rho (HllemFlux true dim Msq (mkM rho mom E Y1 p a g) (mkM rho mom E Y1 p a g) d old)).
  unfold HllemFlux. cbv zeta. replace (Nat.eqb dim 3) with false by (symmetry; apply Nat.eqb_neq; lia).
  set (q := mkM rho mom E Y1 p a g). set (l := strip true Msq q d).
  destruct (data_same Msq l d HM) as (D1 & D2 & D3 & D4 & D5 & D6); auto.
  unfold finish. cbn [f_rho]. rewrite D1, D6. unfold MixFlux. cbn [f_rho]. unfold l.
  rewrite strip_normal by (cbn; lia). cbn. ring.
Qed.

Lemma lane_scale lam f x y : 0 <= lam -> lane_upwind (lam * f) x y = lam * lane_upwind f x y.
Proof.
  intros H. unfold lane_upwind. destruct (Rlt_dec 0 (lam * f)) as [L | L], (Rlt_dec 0 f) as [M | M]; try ring.
  - exfalso. assert (0 <= lam * - f) by (apply Rmult_le_pos; lra). lra.
  - assert (lam * f <= 0) by lra. assert (lam = 0); [|subst; ring].
    destruct (Req_dec lam 0) as [Z | Z]; auto. assert (0 < lam * f) by (apply Rmult_lt_0_compat; lra). lra.
Qed.

Lemma pressure_same lar Msq q d : 0 < Msq -> 0 < m_rho q -> 0 < m_a q -> HllemPressure scalar_avg lar Msq q q d = m_p q.
Proof.
  intros HM Hr Ha. unfold HllemPressure. set (l := strip lar Msq q d).
  destruct (strip_fields lar Msq q d) as (F1 & F2 & F3 & F4 & F5). fold l in F1, F2, F3, F4, F5.
  assert (Hi : 0 < 1 / sqrt Msq) by (apply Rmult_lt_0_compat; [lra | apply Rinv_0_lt_compat, sqrt_lt_R0; auto]).
  unfold compute_data. cbn [h_bR h_bL h_db].
  set (sL := Rmin (_ - Rmax _ _ * _) _). set (sR := Rmax _ (_ + Rmax _ _ * _)).
  assert (Hdb : 0 < Rmax sR 0 - Rmin sL 0).
  { pose proof (Rmax_l sR 0). pose proof (Rmin_l sL 0).
    assert (sL < sR); [|lra].
    apply (Rle_lt_trans _ (nth d (m_mom l) 0 / m_rho l - Rmax (m_a l) (m_a l) * (1 / sqrt Msq))); [apply Rmin_l|].
    apply (Rlt_le_trans _ (nth d (m_mom l) 0 / m_rho l + Rmax (m_a l) (m_a l) * (1 / sqrt Msq))); [|apply Rmax_r].
    assert (0 < Rmax (m_a l) (m_a l) * (1 / sqrt Msq)); [|lra]. apply Rmult_lt_0_compat; [|auto].
    pose proof (Rmax_l (m_a l) (m_a l)). lra. }
  destruct (Rlt_dec 0 (Rmax sR 0 - Rmin sL 0)); [|contradiction]. field. lra.
Qed.
