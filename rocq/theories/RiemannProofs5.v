(** Lemmas for C75-C78: the middle state of the code. *)
From Coq Require Import List Reals Lia Lra Psatz Bool ZArith.
From Verif Require Import GasModel GasSpec GasProofs NewtonModel NewtonSpec NewtonProofs NewtonProofs2.
From Verif Require Import RiemannModel RiemannSpec RiemannProofs RiemannProofs2 RiemannProofs3 RiemannProofs4.
Import ListNotations.
Local Open Scope R_scope.

Section Middle.
Variables (g : gas) (l r : Complete) (d : nat).
Hypothesis Hg : perfect g.
Hypothesis Hl : admissible g l.
Hypothesis Hr : admissible g r.

Lemma mean_positive : 0 < 1 / 2 * (pressure l + pressure r).
Proof. destruct Hl as (_ & H1 & _). destruct Hr as (_ & H2 & _). lra. Qed.

Lemma tol_positive : 0 < / 10 ^ 7.
Proof. apply Rinv_0_lt_compat. apply pow_lt. lra. Qed.

(** A root of the pressure function and its velocity *)
Lemma root_velocities pM uM : 0 < pM -> f_pressure g l r d pM = Fin 0 -> middle_velocity g l r d pM = Fin uM ->
  F g l r d pM = 0 /\ uM = velocity l d - phi g l pM /\ uM = velocity r d + phi g r pM.
Proof.
  intros H E1 E2. rewrite (f_pressure_F g l r d Hg Hl Hr) in E1 by exact H. injection E1 as E1.
  rewrite (middle_velocity_fin g l r d Hg Hl Hr) in E2 by exact H. injection E2 as E2. unfold F in *. repeat split; lra.
Qed.

Lemma root_velocity_exists pM : 0 < pM -> F g l r d pM = 0 ->
  f_pressure g l r d pM = Fin 0 /\ exists uM, middle_velocity g l r d pM = Fin uM.
Proof.
  intros H E. rewrite (f_pressure_F g l r d Hg Hl Hr) by exact H. split; [f_equal; exact E|].
  eexists. apply middle_velocity_fin; auto.
Qed.

(** The value at zero pressure *)
Lemma f_side_zero q : admissible g q -> f_side g q 0 = Fin (- (2 / (gamma g - 1) * speed_of_sound q)).
Proof.
  intros (Hd & Hp & _). pose proof Hg as [G _]. unfold f_side. cbv zeta. destruct (Rlt_dec (pressure q) 0); [lra|].
  unfold dpow. replace (0 / pressure q) with 0 by (field; lra). destruct (Rlt_dec 0 0); [lra|].
  destruct (Rlt_dec 0 _) as [P|P].
  - cbn [dadd dscale]. f_equal. field. lra.
  - exfalso. apply P. replace (1 / 2 * (gamma g - 1) / gamma g) with ((gamma g - 1) / (2 * gamma g)) by (field; lra).
    apply Rdiv_lt_0_compat; lra.
Qed.

Lemma df_side_zero q : admissible g q -> df_side g q 0 = PInf.
Proof.
  intros Hq. destruct (side_facts g q Hg Hq) as (G & Hd & Hp & Ha & He).
  unfold df_side. cbv zeta. destruct (Rlt_dec (pressure q) 0); [lra|].
  unfold dpow. replace (0 / pressure q) with 0 by (field; lra). destruct (Rlt_dec 0 0); [lra|].
  assert (- (1 / 2) * (gamma g + 1) / gamma g < 0) as E.
  { replace (- (1 / 2) * (gamma g + 1) / gamma g) with (- ((gamma g + 1) / (2 * gamma g))) by (field; lra).
    assert (0 < (gamma g + 1) / (2 * gamma g)) by (apply Rdiv_lt_0_compat; lra). lra. }
  destruct (Rlt_dec 0 _); [lra|]. destruct (Rlt_dec _ 0); [|lra]. cbn [dscale].
  assert (0 < / (density q * speed_of_sound q)) by (apply Rinv_0_lt_compat, Rmult_lt_0_compat; auto).
  destruct (Rlt_dec 0 _); [reflexivity|lra].
Qed.

Lemma f_pressure_zero : f_pressure g l r d 0 =
  Fin (velocity r d - velocity l d - 2 / (gamma g - 1) * (speed_of_sound l + speed_of_sound r)).
Proof. unfold f_pressure. rewrite !f_side_zero by auto. cbn [dadd]. f_equal. ring. Qed.

Lemma df_pressure_zero : df_pressure g l r 0 = PInf.
Proof. unfold df_pressure. rewrite !df_side_zero by auto. reflexivity. Qed.

(** Vacuum: the iteration cannot succeed *)
Lemma vacuum_loop tol n : tol < velocity r d - velocity l d - 2 / (gamma g - 1) * (speed_of_sound l + speed_of_sound r) -> 0 < tol ->
  forall x, 0 <= x ->
  let '(y, fy, k) := newton_loop (f_pressure g l r d) (df_pressure g l r) tol n x (f_pressure g l r d x) in
  k = O /\ gt fy tol = true.
Proof.
  intros Hgap Htol.
  assert (forall x, 0 <= x -> exists v, f_pressure g l r d x = Fin v /\ tol < v) as V.
  { intros x Hx. destruct (Req_dec x 0) as [-> | N].
    - rewrite f_pressure_zero. eexists. split; [reflexivity|lra].
    - rewrite (f_pressure_F g l r d Hg Hl Hr) by lra. eexists. split; [reflexivity|].
      apply (vacuum_above g l r d Hg Hl Hr); lra. }
  induction n as [|n IH]; intros x Hx; cbn [newton_loop].
  - split; [reflexivity|]. destruct (V x Hx) as (v & -> & Hv). unfold gt. destruct (Rlt_dec tol v); [reflexivity|lra].
  - destruct (V x Hx) as (v & E & Hv). rewrite E. cbn [abs_gt]. destruct (Rlt_dec tol (Rabs v)) as [_|N].
    2:{ exfalso. apply N. rewrite Rabs_right by lra. exact Hv. }
    apply IH. unfold next_x. destruct (next_value _ _ _) as [z|]; [|lra]. destruct (Rlt_dec z 0); lra.
Qed.

Lemma vacuum_exception : / 10 ^ 7 < velocity r d - velocity l d - 2 / (gamma g - 1) * (speed_of_sound l + speed_of_sound r) ->
  ComputeMiddleState g l r d = Exception.
Proof.
  intros H. unfold ComputeMiddleState, NewtonIteration.
  pose proof (vacuum_loop (/ 10 ^ 7) (Z.to_nat 5000) H tol_positive _ (Rlt_le _ _ mean_positive)) as L.
  destruct (newton_loop _ _ _ _ _ _) as [[y fy] k]. destruct L as [-> ->]. reflexivity.
Qed.

(** The result of the code in terms of the exact middle state *)
Lemma middle_result_cases p u : ComputeMiddleState g l r d = Middle p u -> 0 < p ->
  u = 1 / 2 * (velocity l d + velocity r d) + 1 / 2 * (phi g r p - phi g l p) /\
  (Rabs (F g l r d p) <= / 10 ^ 7 \/ F g l r d p < - / 10 ^ 7).
Proof.
  unfold ComputeMiddleState. intros E Hp.
  destruct (NewtonIteration _ _ _ _ _) as [x|x] eqn:EN; [|discriminate].
  assert (x = p) as Exp by (destruct (middle_velocity g l r d x); congruence). subst x.
  rewrite (middle_velocity_fin g l r d Hg Hl Hr) in E by exact Hp. injection E as E. split; [lra|].
  apply newton_returns in EN; [|lia]. unfold solves, below in EN. rewrite (f_pressure_F g l r d Hg Hl Hr) in EN by exact Hp.
  destruct EN as [N | [(v & Ev & Hv) | [N | (v & Ev & Hv)]]]; try discriminate.
  - injection Ev as <-. left. apply Rabs_le. exact Hv.
  - injection Ev as <-. right. exact Hv.
Qed.

(** A positive first Newton step: success *)
Lemma converges ps x1 : 0 < ps -> F g l r d ps = 0 ->
  x1 = 1 / 2 * (pressure l + pressure r) - F g l r d (1 / 2 * (pressure l + pressure r)) / DF g l r (1 / 2 * (pressure l + pressure r)) ->
  0 < x1 -> - F g l r d x1 * DF g l r x1 <= / 10 ^ 7 * DF g l r ps * 4 ^ Z.to_nat 4999 ->
  exists p u, ComputeMiddleState g l r d = Middle p u /\ 0 < p /\ Rabs (F g l r d p) <= / 10 ^ 7 /\
              u = 1 / 2 * (velocity l d + velocity r d) + 1 / 2 * (phi g r p - phi g l p).
Proof.
  intros Hps E Ex Hx1 Hb. set (x0 := 1 / 2 * (pressure l + pressure r)) in *.
  pose proof mean_positive as P0. fold x0 in P0.
  pose proof (DF_positive g l r Hg Hl Hr x0 P0) as D0.
  assert (exists p, NewtonIteration (f_pressure g l r d) (df_pressure g l r) x0 (/ 10 ^ 7) 5000 = Returned p /\ 0 < p /\
                    Rabs (F g l r d p) <= / 10 ^ 7) as (p & EN & Hp & Ep).
  { assert (x1 <= ps) as B.
    { pose proof (F_tangent g l r d Hg Hl Hr x0 ps P0 Hps) as T. rewrite E in T.
      apply Rmult_le_reg_l with (DF g l r x0); [exact D0|]. rewrite Ex.
      replace (DF g l r x0 * (x0 - F g l r d x0 / DF g l r x0)) with (DF g l r x0 * x0 - F g l r d x0) by (field; lra). lra. }
    pose proof (newton_below (f_pressure g l r d) (df_pressure g l r) (F g l r d) (DF g l r) ps (/ 10 ^ 7)
      (f_pressure_F g l r d Hg Hl Hr) (df_pressure_DF g l r Hg Hl Hr) (DF_positive g l r Hg Hl Hr)
      (F_tangent g l r d Hg Hl Hr) Hps E tol_positive x1 4999 ltac:(lra) ltac:(lia) Hb) as (p & EN & Hp & Ep).
    unfold NewtonIteration in EN |- *. replace (Z.to_nat 5000) with (S (Z.to_nat 4999)) by lia. cbn [newton_loop].
    rewrite (f_pressure_F g l r d Hg Hl Hr x0) by exact P0. cbn [abs_gt].
    destruct (Rlt_dec (/ 10 ^ 7) (Rabs (F g l r d x0))) as [L|L].
    - rewrite (df_pressure_DF g l r Hg Hl Hr) by exact P0. cbn [next_value].
      destruct (Req_EM_T (DF g l r x0) 0); [lra|]. rewrite <- Ex. cbn [next_x].
      destruct (Rlt_dec x1 0); [lra|].
      destruct (newton_loop _ _ _ (Z.to_nat 4999) x1 _) as [[y fy] k].
      exists p. split; [|split; [lra|exact Ep]]. change (0 <=? 5000)%Z with true. change (0 <=? 4999)%Z with true in EN. exact EN.
    - exists x0. split; [cbn [Nat.eqb]; rewrite andb_false_r; reflexivity|]. split; [exact P0|lra]. }
  exists p, (1 / 2 * (velocity l d + velocity r d) + 1 / 2 * (phi g r p - phi g l p)).
  split; [|auto]. unfold ComputeMiddleState. fold x0. rewrite EN.
  rewrite (middle_velocity_fin g l r d Hg Hl Hr) by exact Hp. reflexivity.
Qed.

(** A Newton step to zero: the iteration stays there *)
Lemma stuck_loop tol n : tol < Rabs (velocity r d - velocity l d - 2 / (gamma g - 1) * (speed_of_sound l + speed_of_sound r)) ->
  newton_loop (f_pressure g l r d) (df_pressure g l r) tol n 0 (f_pressure g l r d 0) = (0, f_pressure g l r d 0, O).
Proof.
  intros H. induction n as [|n IH]; [reflexivity|]. cbn [newton_loop].
  replace (abs_gt (f_pressure g l r d 0) tol) with true.
  2:{ rewrite f_pressure_zero. cbn [abs_gt]. destruct (Rlt_dec tol _); [reflexivity|contradiction]. }
  rewrite df_pressure_zero. replace (next_value 0 (f_pressure g l r d 0) PInf) with (Some 0) by (rewrite f_pressure_zero; reflexivity).
  cbn [next_x]. destruct (Rlt_dec 0 0); [lra|]. exact IH.
Qed.
End Middle.

(** ** Identical states *)

Lemma equal_middle g q d : perfect g -> admissible g q -> ComputeMiddleState g q q d = Middle (pressure q) (velocity q d).
Proof.
  intros Hg Hq. pose proof Hq as (_ & Hp & _). unfold ComputeMiddleState.
  replace (1 / 2 * (pressure q + pressure q)) with (pressure q) by field.
  assert (f_pressure g q q d (pressure q) = Fin 0) as E.
  { rewrite (f_pressure_F g q q d Hg Hq Hq) by exact Hp. f_equal. unfold F. rewrite phi_p0 by auto. ring. }
  unfold NewtonIteration. rewrite E.
  assert (forall n, newton_loop (f_pressure g q q d) (df_pressure g q q) (/ 10 ^ 7) n (pressure q) (Fin 0) = (pressure q, Fin 0, n)) as L.
  { intros [|n]; [reflexivity|]. cbn [newton_loop abs_gt]. rewrite Rabs_R0. pose proof tol_positive.
    destruct (Rlt_dec (/ 10 ^ 7) 0); [lra|reflexivity]. }
  rewrite L. replace (gt (Fin 0) (/ 10 ^ 7)) with false
    by (unfold gt; pose proof tol_positive; destruct (Rlt_dec (/ 10 ^ 7) 0); [lra|reflexivity]).
  rewrite andb_false_r. rewrite (middle_velocity_fin g q q d Hg Hq Hq) by exact Hp. f_equal. rewrite phi_p0 by auto. field.
Qed.

Lemma sound_ratio_one g q : admissible g q -> sound_ratio g q (pressure q) = 1.
Proof.
  intros (_ & Hp & _). unfold sound_ratio. replace (pressure q / pressure q) with 1 by (field; lra). apply Rpower_base_1.
Qed.

Lemma rarefied_same g q d : perfect g -> admissible g q -> (d < length (momentum q))%nat ->
  rarefied g q d (pressure q) (velocity q d) = q.
Proof.
  intros Hg Hq Hd. pose proof Hq as (Hr & Hp & _). unfold rarefied. cbv zeta.
  replace (pressure q / pressure q) with 1 by (field; lra). rewrite Rpower_base_1, Rmult_1_r.
  apply prim_self; auto.
Qed.

Lemma equal_solution g q d x : perfect g -> admissible g q -> (d < length (momentum q))%nat ->
  solution g q q d (pressure q) (velocity q d) x = q.
Proof.
  intros Hg Hq Hd. pose proof Hq as (Hr & Hp & _).
  assert (velocity q d = velocity q d - 1 * phi g q (pressure q)) as U1 by (rewrite phi_p0 by auto; ring).
  assert (velocity q d = velocity q d - -1 * phi g q (pressure q)) as U2 by (rewrite phi_p0 by auto; ring).
  unfold solution. destruct (Rle_dec x (velocity q d)).
  - rewrite left_wave_rarefaction by (auto; lra). destruct (Rlt_dec x _); [reflexivity|].
    rewrite sound_ratio_one by auto. destruct (Rlt_dec _ x); [apply rarefied_same; auto|].
    assert (x = velocity q d - 1 * speed_of_sound q) as -> by lra. apply fan_head; auto.
  - rewrite right_wave_rarefaction by (auto; lra). destruct (Rle_dec _ x); [reflexivity|].
    rewrite sound_ratio_one by auto. destruct (Rle_dec x _); [apply rarefied_same; auto|].
    lra.
Qed.

(** ** The waves are not wider than the signals *)

Lemma left_tight g l d pM uM : perfect g -> admissible g l -> (d < length (momentum l))%nat -> 0 < pM ->
  uM = velocity l d - 1 * phi g l pM -> pM <> pressure l ->
  forall s, velocity l d - signal_distance g l pM < s ->
  exists x, velocity l d - signal_distance g l pM < x < s /\ x <= uM /\ left_wave g l d pM uM x <> l.
Proof.
  intros Hg Hl Hd Hp Hu N s Hs.
  destruct (Rlt_dec (pressure l) pM) as [L|L].
  - pose proof (shock_before g l d 1 Hg Hl one_sign pM uM L Hu) as B.
    set (S := velocity l d - signal_distance g l pM) in *.
    assert (velocity l d - 1 * signal_distance g l pM = S) as ES by (unfold S; ring). rewrite ES in B.
    set (x := (S + Rmin s uM) / 2).
    assert (S < Rmin s uM) as M by (apply Rmin_glb_lt; lra). pose proof (Rmin_l s uM). pose proof (Rmin_r s uM).
    exists x. unfold x. split; [lra|]. split; [lra|]. rewrite left_wave_shock by exact L. rewrite ES.
    destruct (Rlt_dec S _); [|lra]. intros E. apply N. rewrite <- E at 1. unfold shocked. rewrite prim_pressure. reflexivity.
  - assert (0 < pM <= pressure l) as Hp' by lra.
    pose proof (head_tail g l d 1 Hg Hl one_sign pM uM Hp' Hu) as (_ & H1 & H2). specialize (H1 ltac:(lra)).
    unfold signal_distance in *. destruct (Rlt_dec (pressure l) pM); [lra|].
    set (H := velocity l d - speed_of_sound l) in *. assert (velocity l d - 1 * speed_of_sound l = H) as EH by (unfold H; ring).
    rewrite EH in H1. set (T := uM - 1 * (speed_of_sound l * sound_ratio g l pM)) in *.
    pose proof (Rmin_l s T). pose proof (Rmin_r s T). assert (H < Rmin s T) as M by (apply Rmin_glb_lt; lra).
    set (x := (H + Rmin s T) / 2). exists x. split; [unfold x; lra|]. split; [unfold x; lra|].
    rewrite left_wave_rarefaction by (auto; lra). rewrite EH. fold T.
    destruct (Rlt_dec x H); [unfold x in *; lra|]. destruct (Rlt_dec T x); [unfold x in *; lra|].
    intros E. assert (speed (fan g l d 1 x) d = speed l d) as V by (rewrite E; reflexivity).
    unfold fan in V. rewrite prim_speed in V; auto.
    + unfold fan_velocity in V. change (speed l d) with (velocity l d) in V. pose proof Hg as [G _].
      assert (x = H) as C; [|unfold x in C; lra]. unfold H.
      apply Rmult_eq_reg_l with (2 / (gamma g + 1)); [|assert (0 < 2 / (gamma g + 1)) by (apply Rdiv_lt_0_compat; lra); lra].
      transitivity (velocity l d - 2 / (gamma g + 1) * (1 * speed_of_sound l + 1 / 2 * (gamma g - 1) * velocity l d)).
      * rewrite <- V at 1. ring.
      * field. lra.
    + assert (0 < fan_density g l d 1 x); [|lra]. apply Rmult_lt_0_compat; [apply Hl | apply Rpower_pos].
Qed.

Lemma right_tight g r d pM uM : perfect g -> admissible g r -> (d < length (momentum r))%nat -> 0 < pM ->
  uM = velocity r d - -1 * phi g r pM -> pM <> pressure r ->
  forall s, s < velocity r d + signal_distance g r pM ->
  exists x, s < x < velocity r d + signal_distance g r pM /\ uM < x /\ right_wave g r d pM uM x <> r.
Proof.
  intros Hg Hr Hd Hp Hu N s Hs.
  destruct (Rlt_dec (pressure r) pM) as [L|L].
  - pose proof (shock_before g r d (-1) Hg Hr minus_sign pM uM L Hu) as B.
    set (S := velocity r d + signal_distance g r pM) in *.
    assert (velocity r d - -1 * signal_distance g r pM = S) as ES by (unfold S; ring). rewrite ES in B.
    set (x := (S + Rmax s uM) / 2).
    assert (Rmax s uM < S) as M by (apply Rmax_lub_lt; lra). pose proof (Rmax_l s uM). pose proof (Rmax_r s uM).
    exists x. unfold x. split; [lra|]. split; [lra|]. rewrite right_wave_shock by exact L. rewrite ES.
    destruct (Rlt_dec _ S); [|lra]. intros E. apply N. rewrite <- E at 1. unfold shocked. rewrite prim_pressure. reflexivity.
  - assert (0 < pM <= pressure r) as Hp' by lra.
    pose proof (head_tail g r d (-1) Hg Hr minus_sign pM uM Hp' Hu) as (_ & H1 & H2). specialize (H1 ltac:(lra)).
    unfold signal_distance in *. destruct (Rlt_dec (pressure r) pM); [lra|].
    set (H := velocity r d + speed_of_sound r) in *. assert (velocity r d - -1 * speed_of_sound r = H) as EH by (unfold H; ring).
    rewrite EH in H1. set (T := uM - -1 * (speed_of_sound r * sound_ratio g r pM)) in *.
    pose proof (Rmax_l s T). pose proof (Rmax_r s T). assert (Rmax s T < H) as M by (apply Rmax_lub_lt; lra).
    set (x := (H + Rmax s T) / 2). exists x. split; [unfold x; lra|]. split; [unfold x; lra|].
    rewrite right_wave_rarefaction by (auto; lra). rewrite EH. fold T.
    destruct (Rle_dec H x); [unfold x in *; lra|]. destruct (Rle_dec x T); [unfold x in *; lra|].
    intros E. assert (speed (fan g r d (-1) x) d = speed r d) as V by (rewrite E; reflexivity).
    unfold fan in V. rewrite prim_speed in V; auto.
    + unfold fan_velocity in V. change (speed r d) with (velocity r d) in V. pose proof Hg as [G _].
      assert (x = H) as C; [|unfold x in C; lra]. unfold H.
      apply Rmult_eq_reg_l with (2 / (gamma g + 1)); [|assert (0 < 2 / (gamma g + 1)) by (apply Rdiv_lt_0_compat; lra); lra].
      transitivity (velocity r d - 2 / (gamma g + 1) * (-1 * speed_of_sound r + 1 / 2 * (gamma g - 1) * velocity r d)).
      * rewrite <- V at 1. ring.
      * field. lra.
    + assert (0 < fan_density g r d (-1) x); [|lra]. apply Rmult_lt_0_compat; [apply Hr | apply Rpower_pos].
Qed.

(** ** The flux function *)

Lemma nth_add_at d x a i : (i < length a)%nat -> nth i (add_at d x a) 0 = nth i a 0 + (if Nat.eqb i d then x else 0).
Proof.
  revert d i. induction a as [|y a IH]; intros d i Hi; [cbn in Hi; lia|].
  destruct d, i; cbn in *; try ring.
  rewrite IH by lia. reflexivity.
Qed.

Lemma flux_component q d c : 0 < density q -> (forall k, c = Momentum k -> (k < length (momentum q))%nat) ->
  component c (Flux q d) = transport c q d.
Proof.
  intros H Hc. unfold Flux, transport, speed. cbv zeta. destruct c as [|k|]; cbn [component c_density c_momentum c_energy].
  - field. lra.
  - rewrite nth_add_at by (rewrite map_length; auto).
    rewrite (nth_indep _ 0 (nth d (momentum q) 0 / density q * 0)) by (rewrite map_length; auto).
    rewrite (map_nth (fun m => nth d (momentum q) 0 / density q * m)). destruct (Nat.eqb k d); ring.
  - ring.
Qed.
