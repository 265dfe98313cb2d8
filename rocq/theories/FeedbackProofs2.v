(** Further proofs for C144 and C145. *)
From Coq Require Import List ZArith Reals Bool Lra Lia Permutation.
From Verif Require Import PlenaModel FeedbackModel FeedbackSpec FeedbackProofs.
Import ListNotations.
Local Open Scope R_scope.

(** Sums of states over a list of points *)
Lemma total_pos f l : l <> [] -> (forall x, In x l -> 0 < f x) -> 0 < total f l.
Proof.
  destruct l as [|a r]; [congruence|]. intros _. revert a. induction r as [|b r IH]; intros a H; cbn.
  - pose proof (H a (or_introl eq_refl)). lra.
  - pose proof (H a (or_introl eq_refl)). assert (0 < total f (b :: r)) by (apply IH; intros; apply H; now right).
    cbn in *. lra.
Qed.
Lemma energy_super (q : Z * Z -> cons) l : l <> [] -> (forall x, In x l -> 0 < c_rho (q x)) ->
  total (fun x => internal_energy (q x)) l <=
  internal_energy (mkCons (total (fun x => c_rho (q x)) l) (total (fun x => c_mx (q x)) l)
                     (total (fun x => c_my (q x)) l) (total (fun x => c_E (q x)) l)).
Proof.
  destruct l as [|a r]; [congruence|]. intros _. revert a. induction r as [|b r IH]; intros a H.
  - cbn. rewrite !Rplus_0_r. unfold internal_energy; cbn. lra.
  - assert (IH' := IH b ltac:(intros; apply H; now right)). cbn [total] in *.
    assert (Hr : 0 < total (fun x => c_rho (q x)) (b :: r)) by (apply total_pos; [discriminate|intros; apply H; now right]).
    cbn [total] in Hr.
    remember (c_rho (q b) + total (fun x => c_rho (q x)) r) as R2. remember (c_mx (q b) + total (fun x => c_mx (q x)) r) as X2.
    remember (c_my (q b) + total (fun x => c_my (q x)) r) as Y2. remember (c_E (q b) + total (fun x => c_E (q x)) r) as E2.
    pose proof (H a (or_introl eq_refl)) as Ha. unfold internal_energy in *; cbn [c_rho c_mx c_my c_E] in *.
    pose proof (ke_super (c_rho (q a)) (c_mx (q a)) R2 X2 Ha Hr) as KX.
    pose proof (ke_super (c_rho (q a)) (c_my (q a)) R2 Y2 Ha Hr) as KY.
    assert (D : forall x y r, 0 < r -> (x + y) / (2 * r) = x / r / 2 + y / r / 2) by (intros; field; lra).
    rewrite (D _ _ (c_rho (q a))) in * by lra. rewrite (D _ _ R2) in * by lra. rewrite (D _ _ (c_rho (q a) + R2)) by lra.
    lra.
Qed.
Lemma energy_scale k q : 0 < k -> 0 < c_rho q ->
  internal_energy (mkCons (c_rho q * k) (c_mx q * k) (c_my q * k) (c_E q * k)) = internal_energy q * k.
Proof. intros. unfold internal_energy; cbn. field. split; lra. Qed.

Lemma pressure_energy gm1 q : 0 < c_rho q -> Pressure gm1 q = gm1 * internal_energy q.
Proof. intros. unfold Pressure, internal_energy. field. lra. Qed.

Lemma concat_component pr ranks : concat (map (map (component pr)) ranks) = map (component pr) (concat ranks).
Proof. induction ranks as [|l r IH]; cbn; [reflexivity|]. rewrite IH, map_app. reflexivity. Qed.
Lemma exactly_one_component pr x l : exactly_one (fun p => inside (s_box p) x) l ->
  exactly_one (fun p => inside (f_box p) x) (map (component pr) l).
Proof.
  intros (l1 & p & l2 & -> & Hp & H). exists (map (component pr) l1), (component pr p), (map (component pr) l2).
  split; [rewrite map_app; reflexivity|]. split; [exact Hp|]. intros y Hy. rewrite <- map_app in Hy.
  apply in_map_iff in Hy. destruct Hy as (z & <- & Hz). now apply H.
Qed.

Lemma average_component pr (q : Z * Z -> cons) b ranks : (exists x, inside b x) ->
  (forall p x, In p (concat ranks) -> inside (s_box p) x -> s_data p (fst x) (snd x) = q x) ->
  (forall x, inside b x -> exactly_one (fun p => inside (s_box p) x) (concat ranks)) ->
  AverageState b (map (map (component pr)) ranks) = total (fun x => pr (q x)) (points b) * / INR (numPts b).
Proof.
  intros Hx Hf Hone.
  assert (M : is_mean b (fun x => pr (q x)) (AverageState b (map (map (component pr)) ranks))).
  { apply average_mean; [exact Hx| |].
    - rewrite concat_component. intros p x Hp Hin. apply in_map_iff in Hp. destruct Hp as (p' & <- & Hp). cbn in *.
      now rewrite (Hf p' x).
    - intros x Hin. rewrite concat_component. apply exactly_one_component, Hone, Hin. }
  destruct Hx as (x0 & Hx0). pose proof (numPts_pos b (nonempty_points _ _ Hx0)) as HN.
  apply (mean_unique b (fun x => pr (q x))); [exact M|]. exists (points b). split; [apply points_enum|].
  split; [now apply (nonempty_points b x0)|]. fold (numPts b). field. lra.
Qed.

Lemma average_cons_energy (q : Z * Z -> cons) b ranks : (exists x, inside b x) ->
  (forall p x, In p (concat ranks) -> inside (s_box p) x -> s_data p (fst x) (snd x) = q x) ->
  (forall x, inside b x -> exactly_one (fun p => inside (s_box p) x) (concat ranks)) ->
  (forall x, inside b x -> admissible (q x)) ->
  admissible (AverageCons b ranks) /\
  forall m, is_mean b (fun x => internal_energy (q x)) m -> m <= internal_energy (AverageCons b ranks).
Proof.
  intros Hx Hf Hone Ha. unfold AverageCons. rewrite !(average_component _ q) by assumption.
  destruct Hx as (x0 & Hx0). pose proof (nonempty_points _ _ Hx0) as Hne. pose proof (numPts_pos b Hne) as HN.
  assert (Hk : 0 < / INR (numPts b)) by now apply Rinv_0_lt_compat.
  assert (Hin : forall x, In x (points b) -> admissible (q x)) by (intros x Hx; apply Ha, points_In, Hx).
  assert (Hr : 0 < total (fun x => c_rho (q x)) (points b)) by (apply total_pos; [exact Hne|intros x Hx; apply Hin, Hx]).
  assert (He : 0 < total (fun x => internal_energy (q x)) (points b)) by (apply total_pos; [exact Hne|intros x Hx; apply Hin, Hx]).
  pose proof (energy_super q (points b) Hne ltac:(intros x Hx; apply Hin, Hx)) as HS.
  remember (mkCons (total (fun x => c_rho (q x)) (points b)) (total (fun x => c_mx (q x)) (points b))
                     (total (fun x => c_my (q x)) (points b)) (total (fun x => c_E (q x)) (points b))) as T eqn:ET.
  assert (EE : internal_energy (mkCons (total (fun x => c_rho (q x)) (points b) * / INR (numPts b)) (total (fun x => c_mx (q x)) (points b) * / INR (numPts b))
                     (total (fun x => c_my (q x)) (points b) * / INR (numPts b)) (total (fun x => c_E (q x)) (points b) * / INR (numPts b)))
               = internal_energy T * / INR (numPts b)).
  { rewrite <- energy_scale by (subst T; cbn; assumption). subst T. reflexivity. }
  split.
  - split; [cbn; now apply Rmult_lt_0_compat|]. rewrite EE. apply Rmult_lt_0_compat; lra.
  - intros m Hm. rewrite EE.
    rewrite (mean_unique b (fun x => internal_energy (q x)) m (total (fun x => internal_energy (q x)) (points b) * / INR (numPts b)) Hm).
    + apply Rmult_le_compat_r; lra.
    + exists (points b). split; [apply points_enum|]. split; [exact Hne|]. fold (numPts b). field. lra.
Qed.

(** The faces in front of the turbine *)
Lemma boundary_faces_inside bb dom x : inside (boundary_faces bb dom) x <->
  inside (boundary_cells bb dom) x.
Proof. unfold boundary_faces, boundary_cells, inside, convert_x. cbn. destruct (negb (isEmpty bb)); cbn; lia. Qed.

(** Accumulation *)
Lemma accumulate_sum (g : R -> R) b l : forall init,
  AccumulateState (fun acc v => acc + g v) b l init =
  init + shares b (map (fun p => mkFab (f_box p) (fun i j => g (f_data p i j))) l).
Proof.
  unfold AccumulateState. induction l as [|p r IH]; intros init; cbn [fold_left map shares]; [lra|]. rewrite IH.
  assert (E : forall l a, fold_left (fun acc ij => acc + g (f_data p (fst ij) (snd ij))) l a = a + total (fun ij => g (f_data p (fst ij) (snd ij))) l).
  { clear. induction l as [|x l IH]; intros a; cbn; [lra|]. rewrite IH. lra. }
  rewrite E. rewrite (total_perm _ _ _ (inter_perm b (f_box p))), total_filter. unfold share. cbn [f_box f_data]. lra.
Qed.

(** The control keeps the state of the turbine plenum it is given *)
Lemma change_rpm_turbine s o dt s' : ChangeRPM s o dt = Done s' -> PlenaModel.turbine s' = PlenaModel.turbine s.
Proof.
  unfold ChangeRPM. cbv zeta. destruct (Rlt_dec (_ / _) 0); [discriminate|]. intros E.
  apply (f_equal (fun r => match r with Done a => PlenaModel.turbine a | _ => PlenaModel.turbine s' end)) in E. cbn in E. congruence.
Qed.
Lemma compressor_turbine s g o a b dt s' : UpdateCompressorPlenum s g o a b dt = Done s' -> PlenaModel.turbine s' = PlenaModel.turbine s.
Proof.
  unfold UpdateCompressorPlenum, UpdateCompressorFromRPM, bind, pow. cbv zeta.
  destruct (Rlt_dec 0 _); [|discriminate]. intros E.
  apply (f_equal (fun r => match r with Done a => PlenaModel.turbine a | _ => PlenaModel.turbine s' end)) in E. cbn in E. congruence.
Qed.
Lemma update_turbine g o s c s' : UpdatePlena g o s c = Done s' ->
  p_pressure (PlenaModel.turbine s') = p_pressure (c_turbine c) /\ p_temp (PlenaModel.turbine s') = p_temp (c_turbine c).
Proof.
  unfold UpdatePlena. destruct (UpdateTurbinePlenum s g o (c_mdot c) (c_turbine c) (c_last c) (c_dt c)) as [s1| |] eqn:E1; cbn [bind]; try discriminate.
  destruct (UpdateCompressorPlenum _ _ _ _ _ _) as [s2| |] eqn:E2; cbn [bind]; try discriminate. intros E3.
  apply change_rpm_turbine in E3. apply compressor_turbine in E2. rewrite E3, E2.
  unfold UpdateTurbinePlenum, bind, pow in E1. cbv zeta in E1. destruct (Rlt_dec 0 _); [|discriminate].
  apply (f_equal (fun r => match r with Done a => PlenaModel.turbine a | _ => PlenaModel.turbine s1 end)) in E1. cbn in E1.
  rewrite <- E1. cbn. auto.
Qed.

(** Balances of the turbine plenum *)
Lemma plenum_balance gm1 to old f_rho f_rhoe dt new mdot :
  0 < gm1 -> 0 < volume to -> 0 < p_pressure old -> 0 < p_temp old ->
  UpdateTurbinePlenumState gm1 (1 / gm1) to old f_rho f_rhoe dt = (new, mdot) ->
  mdot = turbine_flow to old /\
  p_pressure new = gm1 / volume to * (plenum_energy gm1 to old + dt * (outlet to * f_rhoe - turbine_flow to old * enthalpy gm1 old)) /\
  p_temp new = p_pressure new / (/ volume to * (plenum_mass to old + dt * (outlet to * f_rho - turbine_flow to old))).
Proof.
  intros Hg HV Hp HT E. unfold UpdateTurbinePlenumState in E. apply pair_equal_spec in E. destruct E as [<- <-]. cbn [p_pressure p_temp].
  unfold turbine_flow, plenum_energy, plenum_mass, enthalpy.
  assert (Hs : 0 < sqrt (p_temp old)) by now apply sqrt_lt_R0.
  set (k := correlation to * p_pressure old / sqrt (p_temp old)). clearbody k.
  split; [reflexivity|].
  assert (P : (p_pressure old * (1 / gm1) + (f_rhoe * outlet to - k * ((p_pressure old * (1 / gm1) + p_pressure old) / (p_pressure old / p_temp old))) * dt / volume to) * gm1
    = gm1 / volume to * (volume to * (p_pressure old / gm1) + dt * (outlet to * f_rhoe - k * ((1 / gm1 + 1) * p_temp old)))).
  { field. repeat split; lra. }
  split; [exact P|]. f_equal. field. split; lra.
Qed.

(** What the control makes of its arguments *)
Lemma change_rpm_rest s o dt s' : ChangeRPM s o dt = Done s' ->
  fuel s' = fuel s /\ p_in (compressor s') = p_in (compressor s) /\ p_out (compressor s') = p_out (compressor s).
Proof.
  unfold ChangeRPM. cbv zeta. destruct (Rlt_dec (_ / _) 0); [discriminate|]. intros E.
  pose proof (f_equal (fun r => match r with Done a => fuel a | _ => fuel s' end) E) as E1.
  pose proof (f_equal (fun r => match r with Done a => p_in (compressor a) | _ => 0 end) E) as E2.
  pose proof (f_equal (fun r => match r with Done a => p_out (compressor a) | _ => 0 end) E) as E3. cbn in *. auto.
Qed.
Lemma update_flows g o s c s' : UpdatePlena g o s c = Done s' ->
  fuel s' = fuel s + c_spec c * area_inlet o * c_dt c /\
  p_out (compressor s') = (1 - c_dt c) * p_out (compressor s) + c_dt c * (PlenaModel.c_rho c * area_inlet o) /\
  p_in (PlenaModel.turbine s') = (1 - c_dt c) * p_in (PlenaModel.turbine s) + c_dt c * (c_last c * area_outlet o) /\
  p_out (PlenaModel.turbine s') = (1 - c_dt c) * p_out (PlenaModel.turbine s) + c_dt c * c_mdot c.
Proof.
  unfold UpdatePlena. destruct (UpdateTurbinePlenum s g o (c_mdot c) (c_turbine c) (c_last c) (c_dt c)) as [s1| |] eqn:E1; cbn [bind]; try discriminate.
  destruct (UpdateCompressorPlenum _ _ _ _ _ _) as [s2| |] eqn:E2; cbn [bind]; try discriminate. intros E3.
  pose proof (change_rpm_turbine _ _ _ _ E3) as T3. pose proof (compressor_turbine _ _ _ _ _ _ _ E2) as T2.
  destruct (change_rpm_rest _ _ _ _ E3) as (F3 & _ & O3). rewrite F3, O3, T3, T2. clear E3 T3 T2 F3 O3 s'.
  unfold UpdateTurbinePlenum, bind, pow in E1. cbv zeta in E1. destruct (Rlt_dec 0 _); [|discriminate].
  pose proof (f_equal (fun r => match r with Done a => PlenaModel.turbine a | _ => PlenaModel.turbine s1 end) E1) as T1.
  pose proof (f_equal (fun r => match r with Done a => fuel a | _ => 0 end) E1) as F1.
  pose proof (f_equal (fun r => match r with Done a => p_out (compressor a) | _ => 0 end) E1) as O1. cbn in T1, F1, O1.
  rewrite F1, O1, <- T1. cbn [p_in p_out]. clear E1.
  unfold UpdateCompressorPlenum, UpdateCompressorFromRPM, bind, pow in E2. cbv zeta in E2. destruct (Rlt_dec 0 _); [|discriminate].
  pose proof (f_equal (fun r => match r with Done a => fuel a | _ => 0 end) E2) as F2.
  pose proof (f_equal (fun r => match r with Done a => p_out (compressor a) | _ => 0 end) E2) as O2. cbn in F2, O2.
  rewrite <- F2, <- O2. repeat split; ring.
Qed.
