(** Lemmas for C68: supersonic flow. *)
From Coq Require Import List Reals Lra Lia Bool.
From Verif Require Import GasModel GasSpec GasProofs RotationProofs HllemModel HllemSpec HllemProofs.
Import ListNotations.
Local Open Scope R_scope.

Lemma hlle_left bL bR f1 f2 x y db : bL = 0 -> db = bR - bL -> 0 < db -> hlle bL bR db f1 f2 x y = f1.
Proof. intros -> -> H. unfold hlle. field. lra. Qed.
Lemma hlle_right bL bR f1 f2 x y db : bR = 0 -> db = bR - bL -> 0 < db -> hlle bL bR db f1 f2 x y = f2.
Proof. intros -> -> H. unfold hlle. field. lra. Qed.
Lemma hlle_list_left bL bR db f1 f2 x y : bL = 0 -> db = bR - bL -> 0 < db ->
  length f2 = length f1 -> length x = length f1 -> length y = length f1 -> hlle_list bL bR db f1 f2 x y = f1.
Proof.
  intros E1 E2 H. revert f2 x y. induction f1 as [|a f1 IH]; intros [|b f2] [|c x] [|e y] L1 L2 L3; cbn in *; try lia; auto.
  rewrite hlle_left by auto. f_equal. apply IH; lia.
Qed.
Lemma hlle_list_right bL bR db f1 f2 x y : bR = 0 -> db = bR - bL -> 0 < db ->
  length f2 = length f1 -> length x = length f1 -> length y = length f1 -> hlle_list bL bR db f1 f2 x y = f2.
Proof.
  intros E1 E2 H. revert f2 x y. induction f1 as [|a f1 IH]; intros [|b f2] [|c x] [|e y] L1 L2 L3; cbn in *; try lia; auto.
  rewrite hlle_right by auto. f_equal. apply IH; lia.
Qed.

(** The signals of the model. *)
Lemma roe_vector x y a b : length a = length b ->
  squaredNorm (vmap2 (scalar_avg x y) a b) =
  fold_right (fun i s => scalar_avg x y (nth i a 0) (nth i b 0) * scalar_avg x y (nth i a 0) (nth i b 0) + s) 0 (seq 0 (length a)).
Proof.
  revert b. induction a as [|u a IH]; intros [|v b] L; cbn in L; try lia; [reflexivity|].
  cbn [vmap2 length seq fold_right]. rewrite <- seq_shift.
  assert (E : forall l, fold_right (fun i s => scalar_avg x y (nth i (u :: a) 0) (nth i (v :: b) 0) * scalar_avg x y (nth i (u :: a) 0) (nth i (v :: b) 0) + s) 0 (map S l)
    = fold_right (fun i s => scalar_avg x y (nth i a 0) (nth i b 0) * scalar_avg x y (nth i a 0) (nth i b 0) + s) 0 l).
  { induction l; [reflexivity|]. cbn [map fold_right nth] in *. rewrite IHl. reflexivity. }
  rewrite E, <- IH by lia. reflexivity.
Qed.

Lemma signals_eq Msq l r d : length (m_mom l) = length (m_mom r) -> (d < length (m_mom l))%nat ->
  let D := compute_data scalar_avg Msq l r d in
  h_sL D = slowest_signal Msq d l r /\ h_sR D = fastest_signal Msq d l r.
Proof.
  intros L Hd D. unfold D, compute_data, slowest_signal, fastest_signal, roe_sound, roe_speed2. cbn [h_sL h_sR].
  assert (Ev : length (velocities l) = length (velocities r)) by (unfold velocities; rewrite !map_length; exact L).
  rewrite nth_vmap2 by (auto; unfold velocities; rewrite map_length; exact Hd).
  rewrite roe_vector by exact Ev.
  assert (E : fold_right (fun i s => scalar_avg (sqrt (m_rho l)) (sqrt (m_rho r)) (nth i (velocities l) 0) (nth i (velocities r) 0) *
      scalar_avg (sqrt (m_rho l)) (sqrt (m_rho r)) (nth i (velocities l) 0) (nth i (velocities r) 0) + s) 0 (seq 0 (length (velocities l)))
    = fold_right (fun i s => roe l r (speed i) * roe l r (speed i) + s) 0 (seq 0 (length (m_mom l)))).
  { replace (length (velocities l)) with (length (m_mom l)) by (unfold velocities; rewrite map_length; reflexivity).
    generalize (seq 0 (length (m_mom l))). induction l0; cbn; auto. rewrite IHl0. rewrite !nth_velocities. reflexivity. }
  rewrite E. rewrite !nth_velocities. unfold roe, speed, enthalpy, scalar_avg, Rdiv. rewrite !Rmult_1_l. split; reflexivity.
Qed.

Lemma avg_spread (Msq : R) a b : 0 < Msq -> 0 < a -> 0 < Rmax a b * (1 / sqrt Msq).
Proof.
  intros HM Ha. apply Rmult_lt_0_compat; [pose proof (Rmax_l a b); lra|].
  apply Rmult_lt_0_compat; [lra | apply Rinv_0_lt_compat, sqrt_lt_R0; auto].
Qed.
Lemma sqrt_part (Msq x : R) : 0 < Msq -> 0 <= sqrt x * (1 / sqrt Msq).
Proof.
  intros HM. apply Rmult_le_pos; [apply sqrt_pos|].
  apply Rlt_le, Rmult_lt_0_compat; [lra | apply Rinv_0_lt_compat, sqrt_lt_R0; auto].
Qed.

Lemma data_left Msq l r d : 0 < Msq -> 0 < m_a l ->
  length (m_mom r) = length (m_mom l) -> length (m_Y r) = length (m_Y l) ->
  let D := compute_data scalar_avg Msq l r d in
  0 < h_sL D -> h_hlle D = MixFlux Msq l d /\ h_b D = 0 /\ 0 < nth d (m_mom l) 0 / m_rho l.
Proof.
  intros HM Ha L LY D. unfold D, compute_data. cbn [h_sL h_hlle h_b].
  set (x := sqrt (_ * _)). pose proof (avg_spread Msq (m_a l) (m_a r) HM Ha) as S1.
  assert (S2 : 0 <= x * (1 / sqrt Msq)) by apply (sqrt_part Msq _ HM).
  set (A := Rmax (m_a l) (m_a r) * (1 / sqrt Msq)) in *. set (X := x * (1 / sqrt Msq)) in *.
  set (u := nth d (m_mom l) 0 / m_rho l). set (v := nth d (vmap2 _ _ _) 0). set (w := nth d (m_mom r) 0 / m_rho r).
  intros HS. pose proof (Rmin_l (u - A) (v - X)). pose proof (Rmin_r (u - A) (v - X)). pose proof (Rmax_l (v + X) (w + A)).
  rewrite (Rmin_right (Rmin (u - A) (v - X)) 0) by lra. rewrite (Rmax_left (Rmax (v + X) (w + A)) 0) by lra.
  destruct (Rlt_dec 0 (Rmax (v + X) (w + A) - 0)); [|lra].
  split; [|split; [unfold Rdiv; ring | lra]].
  rewrite !hlle_left, !hlle_list_left by (auto; unfold MixFlux; cbn [f_mom f_Y]; rewrite ?add_at_length, ?map_length; auto).
  destruct (MixFlux Msq l d); reflexivity.
Qed.
Lemma data_right Msq l r d : 0 < Msq -> 0 < m_a l ->
  length (m_mom r) = length (m_mom l) -> length (m_Y r) = length (m_Y l) ->
  let D := compute_data scalar_avg Msq l r d in
  h_sR D < 0 -> h_hlle D = MixFlux Msq r d /\ h_b D = 0 /\ nth d (m_mom r) 0 / m_rho r < 0.
Proof.
  intros HM Ha L LY D. unfold D, compute_data. cbn [h_sR h_hlle h_b].
  set (x := sqrt (_ * _)). pose proof (avg_spread Msq (m_a l) (m_a r) HM Ha) as S1.
  assert (S2 : 0 <= x * (1 / sqrt Msq)) by apply (sqrt_part Msq _ HM).
  set (A := Rmax (m_a l) (m_a r) * (1 / sqrt Msq)) in *. set (X := x * (1 / sqrt Msq)) in *.
  set (u := nth d (m_mom l) 0 / m_rho l). set (v := nth d (vmap2 _ _ _) 0). set (w := nth d (m_mom r) 0 / m_rho r).
  intros HS. pose proof (Rmin_r (u - A) (v - X)). pose proof (Rmax_r (v + X) (w + A)). pose proof (Rmax_l (v + X) (w + A)).
  rewrite (Rmin_left (Rmin (u - A) (v - X)) 0) by lra. rewrite (Rmax_right (Rmax (v + X) (w + A)) 0) by lra.
  destruct (Rlt_dec 0 (0 - Rmin (u - A) (v - X))); [|lra].
  split; [|split; [unfold Rdiv; ring | lra]].
  rewrite !hlle_right, !hlle_list_right by (auto; unfold MixFlux; cbn [f_mom f_Y]; rewrite ?add_at_length, ?map_length; auto).
  destruct (MixFlux Msq r d); reflexivity.
Qed.

Lemma scalars_pick lar upw D fr left right q hl : h_b D = 0 ->
  length (m_Y left) = length (m_Y q) -> length (m_Y right) = length (m_Y q) ->
  (lar = true -> forall k, upw fr (nth k (m_Y left) 0 / m_rho left) (nth k (m_Y right) 0 / m_rho right) = fr * (nth k (m_Y q) 0 / m_rho q)) ->
  hl = map (fun y => fr / m_rho q * y) (m_Y q) ->
  scalars lar upw D fr 0 left right hl (m_Y left) (m_Y right) = hl.
Proof.
  intros HB L1 L2 HU ->. revert L1 L2 HU. generalize (m_Y left) as y1, (m_Y right) as y2, (m_Y q) as y.
  intros y1 y2 y. revert y1 y2. induction y as [|a y IH]; intros [|b y1] [|c y2] L1 L2 HU; cbn in L1, L2; try lia; auto.
  cbn [map scalars]. f_equal.
  - destruct lar.
    + pose proof (HU eq_refl 0%nat) as U. cbn [nth] in U. rewrite U. unfold Rdiv. ring.
    + unfold plain_scalar. rewrite HB. ring.
  - apply IH; try lia. intros E k. apply (HU E (S k)).
Qed.

(** Nothing but the flux of the state q upstream remains. *)
Lemma finish_upwind lar upw dim Msq left right q d D dens momx : (1 <= dim <= 3)%nat -> (d < dim)%nat ->
  length (m_mom q) = dim -> 0 < m_rho q -> length (m_Y left) = length (m_Y q) -> length (m_Y right) = length (m_Y q) ->
  let l := strip lar Msq left d in let r := strip lar Msq right d in
  h_hlle D = MixFlux Msq (strip lar Msq q d) d -> h_b D = 0 ->
  (lar = true -> (forall i, upw dens (nth i (velocities left) 0) (nth i (velocities right) 0) = dens * nth i (velocities q) 0) /\
     upw dens (eKinR lar Msq left d) (eKinR lar Msq right d) = dens * eKinR lar Msq q d /\
     forall k, upw dens (nth k (m_Y left) 0 / m_rho left) (nth k (m_Y right) 0 / m_rho right) = dens * (nth k (m_Y q) 0 / m_rho q)) ->
  dens = f_rho (MixFlux Msq (strip lar Msq q d) d) -> momx = nth d (f_mom (MixFlux Msq (strip lar Msq q d) d)) 0 ->
  finish lar upw dim Msq left right l r d D dens momx = euler_flux Msq q d.
Proof.
  intros Hdim Hd Hl Hr L1 L2 l r HF HB HU Hdens Hmom. unfold finish. cbv zeta. rewrite HB, HF. rewrite !Rmult_0_l.
  destruct (strip_fields lar Msq left d) as (A1 & _ & A3 & _). destruct (strip_fields lar Msq right d) as (B1 & _ & B3 & _).
  destruct (strip_fields lar Msq q d) as (C1 & _ & C3 & _).
  assert (HY : scalars lar upw D dens 0 l r (f_Y (MixFlux Msq (strip lar Msq q d) d)) (m_Y l) (m_Y r) = f_Y (MixFlux Msq (strip lar Msq q d) d)).
  { apply (scalars_pick lar upw D dens l r (strip lar Msq q d)); auto; unfold l, r; rewrite ?A1, ?A3, ?B1, ?B3, ?C1, ?C3; auto.
    - intros E. apply (HU E).
    - unfold MixFlux. cbn [f_Y]. rewrite Hdens. unfold MixFlux. cbn [f_rho]. rewrite C1, C3. reflexivity. }
  rewrite HY. rewrite <- (mixflux_euler dim) by (auto; lra). clear HY.
  destruct lar.
  - destruct (HU eq_refl) as (U1 & U2 & _). rewrite !U1, U2, Hdens, Hmom. unfold strip, MixFlux, eKinR, velocities.
    clear - Hdim Hd Hl Hr.
    destruct q as [rho mom E Y p a g]. cbn [m_mom m_rho m_p m_E m_Y f_rho f_mom f_E f_Y] in *.
    dims dim d; lists Hl; cbn; unfold squaredNorm; cbn; eqs; unfold Rdiv; field; lra.
  - rewrite Hdens, Hmom. unfold strip, MixFlux. clear HF HU.
    destruct q as [rho mom E Y p a g]. cbn [m_mom m_rho m_p m_E m_Y f_rho f_mom f_E f_Y] in *.
    dims dim d; lists Hl; cbn; eqs; try ring.
Qed.

Lemma strip_lengths lar Msq left right d dim : (d < dim)%nat -> length (m_mom left) = dim -> length (m_mom right) = dim ->
  length (m_mom (strip lar Msq right d)) = length (m_mom (strip lar Msq left d)).
Proof. intros Hd H1 H2. rewrite !strip_length; lia. Qed.

Lemma flux_sign Msq lar q d : (d < length (m_mom q))%nat -> 0 < m_rho q ->
  f_rho (MixFlux Msq (strip lar Msq q d) d) = m_rho q * (nth d (m_mom (strip lar Msq q d)) 0 / m_rho (strip lar Msq q d)).
Proof.
  intros Hd Hr. destruct (strip_fields lar Msq q d) as (A1 & _). rewrite A1. unfold MixFlux. cbn [f_rho]. field. lra.
Qed.

Section supersonic.
Context (lar : bool) (dim : nat) (Msq : R) (left right : mstate) (d : nat).
Hypothesis Hdim : (1 <= dim <= 3)%nat.
Hypothesis Hd : (d < dim)%nat.
Hypothesis HM : 0 < Msq.
Hypothesis Al : mix_admissible dim Msq left.
Hypothesis Ar : mix_admissible dim Msq right.
Hypothesis LY : length (m_Y left) = length (m_Y right).
Let l := strip lar Msq left d.
Let r := strip lar Msq right d.

Lemma lane_supersonic_left : 0 < slowest_signal Msq d l r -> HllemFlux_lane lar dim Msq left right d = euler_flux Msq left d.
Proof.
  intros HS. destruct Al as (Ll & Rl & _ & Pl & _). destruct Ar as (Lr & Rr & _ & Pr & _).
  assert (LL : length (m_mom r) = length (m_mom l)) by (apply (strip_lengths lar Msq left right d dim); auto).
  destruct (strip_fields lar Msq left d) as (A1 & A2 & A3 & _). destruct (strip_fields lar Msq right d) as (B1 & B2 & B3 & _).
  destruct (signals_eq Msq l r d) as [S1 _]; [auto | unfold l; rewrite strip_length; lia |].
  rewrite <- S1 in HS.
  destruct (data_left Msq l r d HM) as (D1 & D2 & D3); auto; [unfold l; rewrite A2; auto | unfold l, r; rewrite A3, B3; auto|].
  unfold HllemFlux_lane. cbv zeta. rewrite avg_eq. fold l r. rewrite D1, D2.
  assert (P : 0 < f_rho (MixFlux Msq l d)) by (unfold l; rewrite flux_sign by (auto; lia); apply Rmult_lt_0_compat; auto).
  apply finish_upwind; auto.
  - intros E. unfold lane_upwind.
    replace (f_rho (MixFlux Msq l d) - 0 * h_delta (compute_data scalar_avg Msq l r d) * alpha2 dim Msq (compute_data scalar_avg Msq l r d))
      with (f_rho (MixFlux Msq l d)) by ring.
    destruct (Rlt_dec 0 (f_rho (MixFlux Msq l d))); [|contradiction]. auto.
  - fold l. ring.
  - fold l. ring.
Qed.

Lemma lane_supersonic_right : fastest_signal Msq d l r < 0 -> HllemFlux_lane lar dim Msq left right d = euler_flux Msq right d.
Proof.
  intros HS. destruct Al as (Ll & Rl & _ & Pl & _). destruct Ar as (Lr & Rr & _ & Pr & _).
  assert (LL : length (m_mom r) = length (m_mom l)) by (apply (strip_lengths lar Msq left right d dim); auto).
  destruct (strip_fields lar Msq left d) as (A1 & A2 & A3 & _). destruct (strip_fields lar Msq right d) as (B1 & B2 & B3 & _).
  destruct (signals_eq Msq l r d) as [_ S1]; [auto | unfold l; rewrite strip_length; lia |].
  rewrite <- S1 in HS.
  destruct (data_right Msq l r d HM) as (D1 & D2 & D3); auto; [unfold l; rewrite A2; auto | unfold l, r; rewrite A3, B3; auto|].
  unfold HllemFlux_lane. cbv zeta. rewrite avg_eq. fold l r. rewrite D1, D2.
  assert (P : f_rho (MixFlux Msq r d) < 0).
  { unfold r. rewrite flux_sign by (auto; lia). fold r. pose proof (Rmult_lt_compat_l (m_rho right) _ _ Rr D3). lra. }
  apply finish_upwind; auto.
  - intros E. unfold lane_upwind.
    replace (f_rho (MixFlux Msq r d) - 0 * h_delta (compute_data scalar_avg Msq l r d) * alpha2 dim Msq (compute_data scalar_avg Msq l r d))
      with (f_rho (MixFlux Msq r d)) by ring.
    destruct (Rlt_dec 0 (f_rho (MixFlux Msq r d))); [lra|]. auto.
  - fold r. ring.
  - fold r. ring.
Qed.
End supersonic.

(** Scalar version by agreement. *)
Lemma scalar_supersonic_left lar dim Msq left right d old : (1 <= dim <= 2)%nat -> (d < dim)%nat -> 0 < Msq ->
  mix_admissible dim Msq left -> mix_admissible dim Msq right -> length (m_Y left) = length (m_Y right) ->
  0 < slowest_signal Msq d (strip lar Msq left d) (strip lar Msq right d) ->
  HllemFlux lar dim Msq left right d old = euler_flux Msq left d.
Proof.
  intros Hdim Hd HM Al Ar LY HS.
  assert (E : HllemFlux_lane lar dim Msq left right d = euler_flux Msq left d) by (apply lane_supersonic_left; auto; lia).
  rewrite agree; auto. intros _. rewrite E. unfold euler_flux. cbn [f_rho].
  destruct Al as (Ll & Rl & _ & Pl & _). destruct Ar as (Lr & Rr & _ & Pr & _).
  destruct (strip_fields lar Msq left d) as (A1 & A2 & A3 & _). destruct (strip_fields lar Msq right d) as (B1 & B2 & B3 & _).
  assert (LL : length (m_mom (strip lar Msq right d)) = length (m_mom (strip lar Msq left d))) by (apply (strip_lengths lar Msq left right d dim); auto).
  destruct (signals_eq Msq (strip lar Msq left d) (strip lar Msq right d) d) as [S1 _]; [auto | rewrite strip_length; lia |].
  rewrite <- S1 in HS.
  destruct (data_left Msq _ _ d HM ltac:(rewrite A2; exact Pl) LL ltac:(rewrite A3, B3; auto) HS) as (_ & _ & D3).
  rewrite A1, strip_normal in D3 by lia. apply Rlt_le, Rmult_lt_0_compat; auto.
Qed.
Lemma scalar_supersonic_right dim Msq left right d old : (1 <= dim <= 2)%nat -> (d < dim)%nat -> 0 < Msq ->
  mix_admissible dim Msq left -> mix_admissible dim Msq right -> length (m_Y left) = length (m_Y right) ->
  fastest_signal Msq d left right < 0 ->
  HllemFlux false dim Msq left right d old = euler_flux Msq right d.
Proof.
  intros Hdim Hd HM Al Ar LY HS. rewrite agree; auto; [|discriminate]. apply lane_supersonic_right; auto; lia.
Qed.
