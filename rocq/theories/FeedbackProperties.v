(** C144, C145: averages over boxes and the feedback from the flow to the control of the gas turbine. *)
From Coq Require Import List ZArith Reals Bool Lra Lia.
From Verif Require Import PlenaModel FeedbackModel FeedbackSpec FeedbackProofs FeedbackProofs2.
Import ListNotations.
Local Open Scope R_scope.

(** C144: if every cell of the box lies in exactly one patch, the average is the arithmetic mean over the box, whichever
    ranks own the patches and in whatever order; it lies between the smallest and the largest value. *)
Theorem C144_mean : forall (f : Z * Z -> R) (b : box) (ranks : list (list fab)),
  (exists x, inside b x) -> holds_field f (concat ranks) ->
  (forall x, inside b x -> exactly_one (fun p => inside (f_box p) x) (concat ranks)) ->
  is_mean b f (AverageState b ranks) /\
  (forall m, is_mean b f m -> m = AverageState b ranks) /\
  (forall lo hi, (forall x, inside b x -> lo <= f x <= hi) -> lo <= AverageState b ranks <= hi).
Proof.
  intros f b ranks Hx Hf H1. pose proof (average_mean f b ranks Hx Hf H1) as M. split; [exact M|]. split.
  - intros m Hm. now apply (mean_unique b f).
  - intros lo hi HB. now apply (mean_bounds b f).
Qed.
Print Assumptions C144_mean.

Theorem C144_distribution : forall (f : Z * Z -> R) (b : box) (ranks ranks' : list (list fab)),
  (exists x, inside b x) -> holds_field f (concat ranks) -> holds_field f (concat ranks') ->
  (forall x, inside b x -> exactly_one (fun p => inside (f_box p) x) (concat ranks)) ->
  (forall x, inside b x -> exactly_one (fun p => inside (f_box p) x) (concat ranks')) ->
  AverageState b ranks = AverageState b ranks'.
Proof. intros f b r r' Hx Hf Hf' H H'. apply (mean_unique b f); now apply average_mean. Qed.
Print Assumptions C144_distribution.

(** Evaluation of averages over boxes given by numbers *)
Ltac avg := unfold mdot_turbine, turbine_boundary, AverageCons, AverageState, local_average, AccumulateState, allreduce, numPts; cbv zeta;
  cbn [map component fold_left fold_right f_box f_data s_box s_data concat app];
  repeat match goal with |- context[points ?b] => let v := eval vm_compute in (points b) in change (points b) with v end;
  cbn; try lra.
(** A column of four cells on two ranks, with values 1, 2, 3, 4. *)
Definition ex_ranks : list (list fab) :=
  [[mkFab (mkBox 0 0 3 1) (fun _ j => IZR j + 1)]; [mkFab (mkBox 0 2 3 3) (fun _ j => IZR j + 1)]].
Example C144_example_mean : AverageState (mkBox 3 0 3 3) ex_ranks = 5 / 2 /\
  holds_field (fun x => IZR (snd x) + 1) (concat ex_ranks) /\
  (forall x, inside (mkBox 3 0 3 3) x -> exactly_one (fun p => inside (f_box p) x) (concat ex_ranks)).
Proof.
  split; [|split].
  - unfold ex_ranks. avg.
  - intros p x [<-|[<-|[]]] _; reflexivity.
  - intros [i j] [H1 H2]. cbn in *. destruct (Z.le_gt_cases j 1).
    + exists [], (mkFab (mkBox 0 0 3 1) (fun _ j => IZR j + 1)), [mkFab (mkBox 0 2 3 3) (fun _ j => IZR j + 1)].
      split; [reflexivity|]. split; [split; cbn; lia|]. intros y [<-|[]] [? ?]. cbn in *. lia.
    + exists [mkFab (mkBox 0 0 3 1) (fun _ j => IZR j + 1)], (mkFab (mkBox 0 2 3 3) (fun _ j => IZR j + 1)), [].
      split; [reflexivity|]. split; [split; cbn; lia|]. intros y [<-|[]] [? ?]. cbn in *. lia.
Qed.

(** The average of admissible states (positive density and internal energy) is admissible; its internal energy, and so
    its pressure, is at least the mean of those of the cells. *)
Theorem C144_admissible : forall (q : Z * Z -> cons) (b : box) (ranks : list (list sfab)) (gm1 : R),
  0 < gm1 -> (exists x, inside b x) ->
  (forall p x, In p (concat ranks) -> inside (s_box p) x -> s_data p (fst x) (snd x) = q x) ->
  (forall x, inside b x -> exactly_one (fun p => inside (s_box p) x) (concat ranks)) ->
  (forall x, inside b x -> admissible (q x)) ->
  admissible (AverageCons b ranks) /\ 0 < Pressure gm1 (AverageCons b ranks) /\
  forall m, is_mean b (fun x => gm1 * internal_energy (q x)) m -> m <= Pressure gm1 (AverageCons b ranks).
Proof.
  intros q b ranks gm1 Hg Hx Hf H1 Ha. destruct (average_cons_energy q b ranks Hx Hf H1 Ha) as [[A1 A2] B].
  rewrite pressure_energy by exact A1. split; [now split|]. split; [now apply Rmult_lt_0_compat|].
  intros m (l & He & Hl & E).
  assert (M : is_mean b (fun x => internal_energy (q x)) (m / gm1)).
  { exists l. split; [exact He|]. split; [exact Hl|]. rewrite total_scal in E.
    unfold Rdiv. rewrite Rmult_assoc, (Rmult_comm (/ gm1)), <- Rmult_assoc, E. field. lra. }
  apply B in M. apply (Rmult_le_compat_l gm1) in M; [|lra]. replace (gm1 * (m / gm1)) with m in M by (field; lra). exact M.
Qed.
Print Assumptions C144_admissible.
(** Two cells of opposite velocities: the average is at rest and its pressure 7/5 is above both pressures 1. *)
Example C144_example_admissible :
  let q := fun x : Z * Z => if (snd x =? 0)%Z then mkCons 1 1 0 3 else mkCons 1 (-1) 0 3 in
  let ranks := [[mkSfab (mkBox 0 0 0 1) (fun i j => q (i, j))]] in
  (forall x, admissible (q x)) /\ AverageCons (mkBox 0 0 0 1) ranks = mkCons 1 0 0 3 /\
  Pressure (2 / 5) (AverageCons (mkBox 0 0 0 1) ranks) = 6 / 5 /\ internal_energy (q (0, 1)%Z) * (2 / 5) = 1.
Proof.
  cbv zeta.
  assert (E : AverageCons (mkBox 0 0 0 1) [[mkSfab (mkBox 0 0 0 1) (fun i j : Z => if (snd (i, j) =? 0)%Z then mkCons 1 1 0 3 else mkCons 1 (-1) 0 3)]] = mkCons 1 0 0 3).
  { avg. f_equal; lra. }
  split; [|split; [exact E|split]].
  - intros [i j]. unfold admissible, internal_energy. cbn. destruct (j =? 0)%Z; cbn; lra.
  - rewrite E. unfold Pressure; cbn. lra.
  - unfold internal_energy; cbn. lra.
Qed.

(** Cells of the box that are in no patch count as zero: for a box that leaves the patches the average is not the mean of
    the cells that exist. *)
Theorem C144_outside_refuted : forall v : R, v <> 0 ->
  exists (b : box) (ranks : list (list fab)),
    (exists p x, In p (concat ranks) /\ inside b x /\ inside (f_box p) x) /\
    holds_field (fun _ => v) (concat ranks) /\ AverageState b ranks = v / 2 /\ AverageState b ranks <> v.
Proof.
  intros v Hv. exists (mkBox 0 0 0 1), [[mkFab (mkBox 0 0 0 0) (fun _ _ => v)]].
  assert (E : AverageState (mkBox 0 0 0 1) [[mkFab (mkBox 0 0 0 0) (fun _ _ => v)]] = v / 2)
    by avg.
  split; [|split; [|split; [exact E|rewrite E; lra]]].
  - exists (mkFab (mkBox 0 0 0 0) (fun _ _ => v)), (0, 0)%Z. split; [now left|]. split; split; cbn; lia.
  - intros p x [<-|[]] _. reflexivity.
Qed.
Print Assumptions C144_outside_refuted.

(** Adding up over a box visits every cell of the box that this rank owns exactly once, and keeps what was in the
    accumulator; other ranks are not included. *)
Theorem C144_accumulate : forall (g : R -> R) (f : Z * Z -> R) (b : box) (fabs : list fab) (init : R) (l : list (Z * Z)),
  holds_field f fabs ->
  (forall x, inside b x -> (exists p, In p fabs /\ inside (f_box p) x) -> exactly_one (fun p => inside (f_box p) x) fabs) ->
  NoDup l -> (forall x, In x l <-> inside b x /\ exists p, In p fabs /\ inside (f_box p) x) ->
  AccumulateState (fun acc v => acc + g v) b fabs init = init + total (fun x => g (f x)) l.
Proof.
  intros g f b fabs init l Hf H1 Hn Hl. rewrite accumulate_sum. f_equal.
  set (fabs' := map (fun p => mkFab (f_box p) (fun i j => g (f_data p i j))) fabs).
  assert (Hf' : holds_field (fun x => g (f x)) fabs').
  { intros p x Hp Hin. apply in_map_iff in Hp. destruct Hp as (p' & <- & Hp). cbn in *. now rewrite (Hf p' x). }
  rewrite (shares_count _ b fabs' Hf').
  assert (C : forall x, count fabs' x = count fabs x).
  { intros x. unfold fabs'. clear. induction fabs as [|p r IH]; cbn; [reflexivity|]. now rewrite IH. }
  rewrite (total_ext _ (fun x => if (1 <=? count fabs x)%nat then g (f x) else 0)).
  - rewrite <- total_filter. apply total_perm. apply Permutation.NoDup_Permutation; [apply NoDup_filter, points_NoDup|exact Hn|].
    intros x. rewrite filter_In, points_In, Hl, Nat.leb_le. split; intros [Hb Hc]; (split; [exact Hb|]).
    + destruct (Exists_dec (fun p => inside (f_box p) x) fabs) as [He|He].
      * intros p. destruct (insideb (f_box p) x) eqn:E; [left; now apply insideb_spec|]. right. rewrite <- insideb_spec. congruence.
      * apply Exists_exists in He. exact He.
      * exfalso. rewrite count_none in Hc; [lia|]. intros p Hp Hin. apply He, Exists_exists. eauto.
    + rewrite count_one; [lia|]. now apply H1.
  - intros x Hx. rewrite C. apply points_In in Hx. destruct (1 <=? count fabs x)%nat eqn:E.
    + apply Nat.leb_le in E. rewrite count_one; [cbn; lra|]. apply H1; [exact Hx|].
      destruct (Exists_dec (fun p => inside (f_box p) x) fabs) as [He|He].
      * intros p. destruct (insideb (f_box p) x) eqn:E'; [left; now apply insideb_spec|]. right. rewrite <- insideb_spec. congruence.
      * apply Exists_exists in He. exact He.
      * exfalso. rewrite count_none in E; [lia|]. intros p Hp Hin. apply He, Exists_exists. eauto.
    + apply Nat.leb_gt in E. replace (count fabs x) with 0%nat by lia. cbn. lra.
Qed.
Print Assumptions C144_accumulate.
Example C144_example_accumulate : AccumulateState (fun acc v => acc + v * v) (mkBox 3 0 3 3) (concat ex_ranks) 7 = 37.
Proof. unfold ex_ranks. avg. Qed.

(** C145: the flow to the turbine. If no patch of cells ends directly in front of the last column of cells, the mass flow
    handed to the control is the area times the mean of the mass flux through the left faces of that column. *)
Theorem C145_flow_partial : forall (f : Z * Z -> R) (area : R) (bb dom cells : box) (ranks : list (list fab)) (cs : list box),
  chosen bb dom cells -> (exists x, inside cells x) ->
  map f_box (concat ranks) = map faces_of cs -> holds_field f (concat ranks) ->
  (forall x, inside (column (bx1 cells) cells) x -> exactly_one (fun c => inside c x) cs) ->
  (forall c, In c cs -> bx1 c <> (bx1 cells - 1)%Z) ->
  exists m, is_mean (column (bx1 cells) cells) f m /\ mdot_turbine area bb dom ranks = area * m.
Proof.
  intros f area bb dom cells ranks cs Hc (x0 & Hx0) Hmap Hf Hone Hend.
  assert (EB : boundary_faces bb dom = column (bx1 cells) cells).
  { unfold boundary_faces, boundary_cells, convert_x, column. cbn.
    destruct Hc as [[-> Hc] | [-> Hc]].
    - destruct Hc as (y & Hy). unfold inside in Hy. replace (isEmpty bb) with false; [reflexivity|].
      symmetry. unfold isEmpty. apply orb_false_iff. rewrite !Z.ltb_ge. lia.
    - replace (isEmpty bb) with true; [reflexivity|]. symmetry. unfold isEmpty. apply not_false_iff_true. intros E.
      apply orb_false_iff in E. rewrite !Z.ltb_ge in E. apply Hc. exists (bx0 bb, by0 bb). unfold inside; cbn. lia. }
  exists (AverageState (column (bx1 cells) cells) ranks). split.
  2:{ unfold mdot_turbine. rewrite EB. ring. }
  apply average_mean.
  - exists (bx1 cells, snd x0). unfold inside, column in *; cbn. lia.
  - exact Hf.
  - intros x Hx. destruct (Hone x Hx) as (l1 & c & l2 & E & Hin & Hno).
    assert (Hsplit : exists k1 p k2, concat ranks = k1 ++ p :: k2 /\ map f_box k1 = map faces_of l1 /\ f_box p = faces_of c /\ map f_box k2 = map faces_of l2).
    { rewrite E, map_app in Hmap. cbn in Hmap. clear - Hmap. revert l1 Hmap. generalize (concat ranks) as k.
      induction k as [|a k IH]; intros l1 Hmap; [destruct l1; discriminate|].
      destruct l1 as [|d l1]; cbn in Hmap; inversion Hmap.
      - exists [], a, k. cbn. auto.
      - destruct (IH l1 H1) as (k1 & p & k2 & -> & E1 & E2 & E3). exists (a :: k1), p, k2. cbn. rewrite E1, H0. auto. }
    destruct Hsplit as (k1 & p & k2 & Ek & M1 & Mp & M2). exists k1, p, k2. split; [exact Ek|]. split.
    + rewrite Mp. unfold inside, faces_of in *; cbn in *. lia.
    + intros y Hy Hiny. assert (Hd : exists d, In d (l1 ++ l2) /\ f_box y = faces_of d).
      { assert (H : In (f_box y) (map faces_of (l1 ++ l2))).
        { rewrite map_app, <- M1, <- M2, <- map_app. now apply in_map. }
        apply in_map_iff in H. destruct H as (d & Ed & Hd). exists d. auto. }
      destruct Hd as (d & Hd & Ed). apply (Hno d Hd). rewrite Ed in Hiny.
      assert (In d cs) by (rewrite E; apply in_app_iff in Hd; apply in_or_app; destruct Hd; [left|right; right]; auto).
      specialize (Hend d H). unfold inside, faces_of, column in *; cbn in *. lia.
Qed.
Print Assumptions C145_flow_partial.
(** 8 x 2 cells in two patches, unit flux through every face *)
Example C145_example_flow :
  let ranks := [[mkFab (mkBox 0 0 5 1) (fun _ _ => 1)]; [mkFab (mkBox 5 0 8 1) (fun _ _ => 1)]] in
  chosen (mkBox 1 1 0 0) (mkBox 0 0 7 1) (mkBox 0 0 7 1) /\
  map f_box (concat ranks) = map faces_of [mkBox 0 0 4 1; mkBox 5 0 7 1] /\
  mdot_turbine 3 (mkBox 1 1 0 0) (mkBox 0 0 7 1) ranks = 3.
Proof.
  cbv zeta. split; [|split; [reflexivity|]].
  - right. split; [reflexivity|]. intros ([i j] & [? ?]). cbn in *. lia.
  - avg.
Qed.

(** Full claim: the mass flow handed to the control is what leaves the domain through its last faces. Refuted: only the
    left faces of the last cells count, so any outflow at all can go with a mass flow of zero. *)
Theorem C145_flow_refuted : forall (n : Z) (out area : R), (0 <= n)%Z -> out <> 0 ->
  exists (ranks : list (list fab)) (f : Z * Z -> R),
    map f_box (concat ranks) = [faces_of (mkBox 0 0 n 0)] /\ holds_field f (concat ranks) /\
    f (n + 1, 0)%Z = out /\ mdot_turbine area (mkBox 1 1 0 0) (mkBox 0 0 n 0) ranks = 0.
Proof.
  intros n out area Hn Ho.
  exists [[mkFab (faces_of (mkBox 0 0 n 0)) (fun i _ => if (i =? n + 1)%Z then out else 0)]], (fun x => if (fst x =? n + 1)%Z then out else 0).
  split; [reflexivity|]. split; [intros p x [<-|[]] _; reflexivity|]. split; [cbn; now rewrite Z.eqb_refl|].
  unfold mdot_turbine. rewrite average_shares. cbn [concat app shares]. unfold share. cbn [f_box f_data].
  rewrite (total_ext _ (fun _ => 0)).
  - rewrite total_zero. unfold Rdiv. ring.
  - intros x Hx. apply points_In in Hx. unfold inside, boundary_faces in Hx; cbn in Hx.
    destruct (insideb _ x); [|reflexivity]. replace (fst x =? n + 1)%Z with false; [reflexivity|]. symmetry. apply Z.eqb_neq. lia.
Qed.
Print Assumptions C145_flow_refuted.

(** If a patch ends in front of the last column its faces are counted twice. *)
Theorem C145_shared_faces_refuted : forall area v : R, area * v <> 0 ->
  exists (ranks : list (list fab)),
    map f_box (concat ranks) = map faces_of [mkBox 0 0 0 0; mkBox 1 0 1 0] /\ holds_field (fun _ => v) (concat ranks) /\
    mdot_turbine area (mkBox 1 1 0 0) (mkBox 0 0 1 0) ranks = 2 * (area * v) /\
    mdot_turbine area (mkBox 1 1 0 0) (mkBox 0 0 1 0) ranks <> area * v.
Proof.
  intros area v H. exists [[mkFab (faces_of (mkBox 0 0 0 0)) (fun _ _ => v)]; [mkFab (faces_of (mkBox 1 0 1 0)) (fun _ _ => v)]].
  assert (E : mdot_turbine area (mkBox 1 1 0 0) (mkBox 0 0 1 0)
     [[mkFab (faces_of (mkBox 0 0 0 0)) (fun _ _ => v)]; [mkFab (faces_of (mkBox 1 0 1 0)) (fun _ _ => v)]] = 2 * (area * v))
   by avg.
  split; [reflexivity|]. split; [intros p x [<-|[<-|[]]] _; reflexivity|]. split; [exact E|rewrite E; lra].
Qed.
Print Assumptions C145_shared_faces_refuted.

(** The state in front of the turbine: positive pressure, at least the mean pressure of the last cells. The temperature is
    that of the equation of state p = rho T used everywhere else only if the gas constant is one. *)
Theorem C145_state_partial : forall (q : Z * Z -> cons) (gm1 ooRspec : R) (bb dom : box) (ranks : list (list sfab)),
  0 < gm1 -> 0 < ooRspec -> (exists x, inside (boundary_cells bb dom) x) ->
  (forall p x, In p (concat ranks) -> inside (s_box p) x -> s_data p (fst x) (snd x) = q x) ->
  (forall x, inside (boundary_cells bb dom) x -> exactly_one (fun p => inside (s_box p) x) (concat ranks)) ->
  (forall x, inside (boundary_cells bb dom) x -> admissible (q x)) ->
  let t := turbine_boundary gm1 ooRspec bb dom ranks in
  0 < p_pressure t /\ 0 < p_temp t /\
  (forall m, is_mean (boundary_cells bb dom) (fun x => gm1 * internal_energy (q x)) m -> m <= p_pressure t) /\
  (forall rho, is_mean (boundary_cells bb dom) (fun x => c_rho (q x)) rho ->
     (p_pressure t = rho * p_temp t <-> ooRspec = 1)).
Proof.
  intros q gm1 oR bb dom ranks Hg HR Hx Hf H1 Ha t.
  destruct (C144_admissible q _ ranks gm1 Hg Hx Hf H1 Ha) as ([A1 A2] & B & C).
  assert (Er : forall rho, is_mean (boundary_cells bb dom) (fun x => c_rho (q x)) rho -> rho = c_rho (AverageCons (boundary_cells bb dom) ranks)).
  { intros rho Hr. unfold AverageCons; cbn [c_rho]. rewrite (average_component c_rho q) by assumption.
    apply (mean_unique _ _ _ _ Hr). destruct Hx as (x0 & Hx0). exists (points (boundary_cells bb dom)).
    split; [apply points_enum|]. split; [now apply (nonempty_points _ x0)|]. fold (numPts (boundary_cells bb dom)).
    pose proof (numPts_pos _ (nonempty_points _ _ Hx0)). field. lra. }
  unfold t, turbine_boundary; cbv zeta; cbn [p_pressure p_temp]. split; [exact B|]. split.
  - apply Rmult_lt_0_compat; [|exact HR]. apply Rdiv_lt_0_compat; assumption.
  - split; [exact C|]. intros rho Hr. rewrite (Er rho Hr).
    remember (Pressure gm1 (AverageCons (boundary_cells bb dom) ranks)) as p. remember (c_rho (AverageCons (boundary_cells bb dom) ranks)) as r.
    replace (r * (p / r * oR)) with (p * oR) by (field; lra). split; intros E.
    + apply (Rmult_eq_reg_l p); lra.
    + subst oR. lra.
Qed.
Print Assumptions C145_state_partial.
Example C145_example_state :
  let ranks := [[mkSfab (mkBox 0 0 7 0) (fun _ _ => mkCons 2 0 0 10)]] in
  let t := turbine_boundary (2 / 5) 1 (mkBox 1 1 0 0) (mkBox 0 0 7 0) ranks in p_pressure t = 4 /\ p_temp t = 2.
Proof. cbv zeta. avg. unfold Pressure; cbn. split; lra. Qed.

(** With the default gas constant 287.4 (PerfectGasMix.hpp:225) the temperature handed to the control is not that of the
    flow: a plenum with p = T = 1 reports T = 1/287.4. *)
Theorem C145_temperature_refuted : exists (ranks : list (list sfab)) (dom : box),
  (forall p x, In p (concat ranks) -> s_data p (fst x) (snd x) = mkCons 1 0 0 (5 / 2)) /\
  (forall x, inside dom x -> exactly_one (fun p => inside (s_box p) x) (concat ranks)) /\
  let t := turbine_boundary (2 / 5) (1 / (2874 / 10)) (mkBox 1 1 0 0) dom ranks in
  p_pressure t = 1 /\ p_temp t = 10 / 2874.
Proof.
  exists [[mkSfab (mkBox 0 0 7 0) (fun _ _ => mkCons 1 0 0 (5 / 2))]], (mkBox 0 0 7 0).
  split; [intros p x [<-|[]]; reflexivity|]. split.
  - intros x Hx. exists [], (mkSfab (mkBox 0 0 7 0) (fun _ _ => mkCons 1 0 0 (5 / 2))), []. split; [reflexivity|]. split; [exact Hx|intros y []].
  - cbv zeta. avg. unfold Pressure; cbn. split; lra.
Qed.
Print Assumptions C145_temperature_refuted.

(** The fluxes at both ends of a tube are those of its first and last face, for every decomposition into patches and every
    distribution over ranks; several tubes are averaged. *)
Theorem C145_tube_fluxes : forall (t : tube) (f : Z -> R),
  (d_lo t <= d_hi t)%Z -> decomposes (d_lo t) (d_hi t) (concat (t_rho t)) -> holds_flux f (concat (t_rho t)) ->
  flux_first t = f (d_lo t) /\ flux_last t = f (d_hi t + 1)%Z.
Proof. intros t f Hle Hd Hf. split; [eapply gather_first|eapply gather_last]; eauto. Qed.
Print Assumptions C145_tube_fluxes.
Theorem C145_tube_species_energy : forall (t : tube) (f g : Z -> R),
  (d_lo t <= d_hi t)%Z -> decomposes (d_lo t) (d_hi t) (concat (t_spec t)) -> holds_flux f (concat (t_spec t)) ->
  decomposes (d_lo t) (d_hi t) (concat (t_rhoe t)) -> holds_flux g (concat (t_rhoe t)) ->
  flux_spec_first t = f (d_lo t) /\ flux_rhoe_last t = g (d_hi t + 1)%Z.
Proof. intros t f g Hle Hd Hf Hd' Hg. split; [eapply gather_first|eapply gather_last]; eauto. Qed.
Print Assumptions C145_tube_species_energy.
Theorem C145_tubes : forall (value : tube -> R) (tubes : list tube) (lo hi : R), tubes <> [] ->
  mean_tubes value tubes * INR (length tubes) = fold_right Rplus 0 (map value tubes) /\
  ((forall t, In t tubes -> lo <= value t <= hi) -> lo <= mean_tubes value tubes <= hi).
Proof.
  intros value tubes lo hi Hne.
  assert (HN : 0 < INR (length tubes)) by (apply lt_0_INR; destruct tubes; [congruence|cbn; lia]).
  assert (E : forall l a, fold_left Rplus l a = a + fold_right Rplus 0 l).
  { induction l as [|x l IH]; intros a; cbn; [lra|]. rewrite IH. lra. }
  assert (M : mean_tubes value tubes * INR (length tubes) = fold_right Rplus 0 (map value tubes)).
  { unfold mean_tubes. rewrite E. field. lra. }
  split; [exact M|]. intros HB.
  assert (B : lo * INR (length tubes) <= fold_right Rplus 0 (map value tubes) <= hi * INR (length tubes)).
  { clear - HB. induction tubes as [|t r IH]; [cbn; lra|]. cbn [length map fold_right]. rewrite S_INR.
    pose proof (HB t (or_introl eq_refl)). specialize (IH (fun t Ht => HB t (or_intror Ht))). lra. }
  rewrite <- M in B. destruct B. split; apply (Rmult_le_reg_r (INR (length tubes))); lra.
Qed.
Print Assumptions C145_tubes.
(** Cells 0 .. 7 in two patches on two ranks; the common face 4 belongs to both. *)
Example C145_example_tube :
  let f := fun i : Z => IZR i + 5 in
  let ps := [[mkTpatch 4 7 f]; [mkTpatch 0 3 f]] in
  let t := mkTube 0 7 ps ps ps in
  decomposes 0 7 (concat ps) /\ holds_flux f (concat ps) /\ flux_first t = 5 /\ flux_last t = 13 /\
  mean_tubes flux_first [t; t] = 5.
Proof.
  cbv zeta. split; [|split].
  - split; [|split].
    + repeat constructor; cbn; lia.
    + apply FOP_cons; [|apply FOP_cons; [constructor|constructor]]. constructor; [|constructor]. right. cbn. lia.
    + intros i Hi. destruct (Z.le_gt_cases i 3).
      * exists (mkTpatch 0 3 (fun i : Z => IZR i + 5)). split; [right; now left|cbn; lia].
      * exists (mkTpatch 4 7 (fun i : Z => IZR i + 5)). split; [now left|cbn; lia].
  - intros p i [<-|[<-|[]]] _; reflexivity.
  - unfold flux_first, flux_last, gather_face, local_face, allreduce, mean_tubes; cbn. repeat split; lra.
Qed.

(** What the control keeps after a call for several tubes: fuel grows by the mean species flux at the first faces, the flow
    out of the compressor plenum relaxes towards the mean mass flux at the first faces, the flow into the turbine plenum
    towards that at the last faces, the flow to the turbine towards the flow in front of it; pressure and temperature are
    those in front of the turbine. *)
Theorem C145_control_plenum : forall (g : gas) (o : options) (gm1 ooRspec area : R) (bb dom : box) (scratch : list (list sfab))
    (fluxes : list (list fab)) (tubes : list tube) (dt : R) (s s' : control) (rho spec : tube -> Z -> R),
  tubes <> [] ->
  (forall t, In t tubes -> (d_lo t <= d_hi t)%Z /\
     decomposes (d_lo t) (d_hi t) (concat (t_rho t)) /\ holds_flux (rho t) (concat (t_rho t)) /\
     decomposes (d_lo t) (d_hi t) (concat (t_spec t)) /\ holds_flux (spec t) (concat (t_spec t))) ->
  FeedbackPlenum g o gm1 ooRspec area bb dom scratch fluxes tubes dt s = Done s' ->
  let mean f := fold_right Rplus 0 (map f tubes) / INR (length tubes) in
  fuel s' = fuel s + dt * (area_inlet o * mean (fun t => spec t (d_lo t))) /\
  p_out (compressor s') = (1 - dt) * p_out (compressor s) + dt * (area_inlet o * mean (fun t => rho t (d_lo t))) /\
  p_in (PlenaModel.turbine s') = (1 - dt) * p_in (PlenaModel.turbine s) + dt * (area_outlet o * mean (fun t => rho t (d_hi t + 1)%Z)) /\
  p_out (PlenaModel.turbine s') = (1 - dt) * p_out (PlenaModel.turbine s) + dt * mdot_turbine area bb dom fluxes /\
  p_pressure (PlenaModel.turbine s') = p_pressure (turbine_boundary gm1 ooRspec bb dom scratch) /\
  p_temp (PlenaModel.turbine s') = p_temp (turbine_boundary gm1 ooRspec bb dom scratch).
Proof.
  intros g o gm1 oR area bb dom scratch fluxes tubes dt s s' rho spec Hne Ht E mean.
  unfold FeedbackPlenum in E. pose proof (update_turbine _ _ _ _ _ E) as [P1 P2]. pose proof (update_flows _ _ _ _ _ E) as (F1 & F2 & F3 & F4).
  cbn [c_spec c_dt PlenaModel.c_rho c_last c_mdot c_turbine] in *.
  assert (M : forall f h : tube -> R, (forall t, In t tubes -> f t = h t) -> mean_tubes f tubes = mean h).
  { intros f h Hfh. destruct (C145_tubes f tubes 0 0 Hne) as [EM _]. unfold mean.
    replace (map h tubes) with (map f tubes) by (apply map_ext_in; exact Hfh). rewrite <- EM. field.
    apply not_0_INR. destruct tubes; [congruence|]. cbn. lia. }
  rewrite (M flux_spec_first (fun t => spec t (d_lo t))) in F1.
  2:{ intros t Hin. destruct (Ht t Hin) as (H0 & _ & _ & H3 & H4). eapply gather_first; eauto. }
  rewrite (M flux_first (fun t => rho t (d_lo t))) in F2.
  2:{ intros t Hin. destruct (Ht t Hin) as (H0 & H1 & H2 & _). eapply gather_first; eauto. }
  rewrite (M flux_last (fun t => rho t (d_hi t + 1)%Z)) in F3.
  2:{ intros t Hin. destruct (Ht t Hin) as (H0 & H1 & H2 & _). eapply gather_last; eauto. }
  repeat split; try assumption; [rewrite F1|rewrite F2|rewrite F3]; ring.
Qed.
Print Assumptions C145_control_plenum.
(** The same for a single tube. *)
Theorem C145_control_tube : forall (g : gas) (o : options) (gm1 : R) (to : toptions) (t : tube) (dt : R) (s s' : control) (rho spec : Z -> R),
  (d_lo t <= d_hi t)%Z ->
  decomposes (d_lo t) (d_hi t) (concat (t_rho t)) -> holds_flux rho (concat (t_rho t)) ->
  decomposes (d_lo t) (d_hi t) (concat (t_spec t)) -> holds_flux spec (concat (t_spec t)) ->
  FeedbackTube g o gm1 (1 / gm1) to t dt s = Done s' ->
  fuel s' = fuel s + dt * (area_inlet o * spec (d_lo t)) /\
  p_out (compressor s') = (1 - dt) * p_out (compressor s) + dt * (area_inlet o * rho (d_lo t)) /\
  p_in (PlenaModel.turbine s') = (1 - dt) * p_in (PlenaModel.turbine s) + dt * (area_outlet o * rho (d_hi t + 1)%Z) /\
  p_out (PlenaModel.turbine s') = (1 - dt) * p_out (PlenaModel.turbine s) + dt * turbine_flow to (PlenaModel.turbine s).
Proof.
  intros g o gm1 to t dt s s' rho spec Hle D1 H1 D2 H2 E. unfold FeedbackTube in E.
  destruct (UpdateTurbinePlenumState gm1 (1 / gm1) to (PlenaModel.turbine s) (flux_last t) (flux_rhoe_last t) dt) as [new mdot] eqn:EU.
  assert (Em : mdot = turbine_flow to (PlenaModel.turbine s)) by (unfold UpdateTurbinePlenumState in EU; apply pair_equal_spec in EU; destruct EU as [_ <-]; reflexivity).
  pose proof (update_flows _ _ _ _ _ E) as (F1 & F2 & F3 & F4). cbn [c_spec c_dt PlenaModel.c_rho c_last c_mdot c_turbine] in *.
  destruct (C145_tube_fluxes t rho Hle D1 H1) as [E1 E2].
  assert (E3 : flux_spec_first t = spec (d_lo t)) by (eapply gather_first; eauto).
  rewrite E3 in F1. rewrite E1 in F2. rewrite E2 in F3. rewrite Em in F4. rewrite F1, F2, F3, F4. repeat split; ring.
Qed.
Print Assumptions C145_control_tube.

(** The turbine plenum of the one-dimensional setup: over any number of calls the mass in the plenum changes by what the
    tube supplies minus what the turbine takes, and so does the internal energy with the enthalpy of the gas. The states
    are those kept in the shared state of the control. *)
Theorem C145_balance : forall (g : gas) (o : options) (gm1 : R) (to : toptions) (calls : nat -> tube * R) (st : nat -> control) (n : nat),
  0 < gm1 -> 0 < volume to ->
  (forall k, (k < n)%nat -> FeedbackTube g o gm1 (1 / gm1) to (fst (calls k)) (snd (calls k)) (st k) = Done (st (S k))) ->
  (forall k, (k <= n)%nat -> 0 < p_pressure (PlenaModel.turbine (st k)) /\ 0 < p_temp (PlenaModel.turbine (st k))) ->
  plenum_mass to (PlenaModel.turbine (st n)) = plenum_mass to (PlenaModel.turbine (st 0%nat)) +
    sum_upto n (fun k => snd (calls k) * (outlet to * flux_last (fst (calls k)) - turbine_flow to (PlenaModel.turbine (st k)))) /\
  plenum_energy gm1 to (PlenaModel.turbine (st n)) = plenum_energy gm1 to (PlenaModel.turbine (st 0%nat)) +
    sum_upto n (fun k => snd (calls k) * (outlet to * flux_rhoe_last (fst (calls k)) -
                           turbine_flow to (PlenaModel.turbine (st k)) * enthalpy gm1 (PlenaModel.turbine (st k)))).
Proof.
  intros g o gm1 to calls st n Hg HV Hstep Hpos. induction n as [|n IH]; cbn [sum_upto]; [lra|].
  destruct IH as [IM IE]; [intros; apply Hstep; lia|intros; apply Hpos; lia|].
  destruct (Hpos n ltac:(lia)) as [Hp HT]. destruct (Hpos (S n) ltac:(lia)) as [Hp' HT'].
  pose proof (Hstep n ltac:(lia)) as E. unfold FeedbackTube in E.
  destruct (UpdateTurbinePlenumState gm1 (1 / gm1) to (PlenaModel.turbine (st n)) (flux_last (fst (calls n))) (flux_rhoe_last (fst (calls n))) (snd (calls n))) as [new mdot] eqn:EU.
  apply update_turbine in E. cbn [c_turbine] in E. destruct E as [E1 E2].
  destruct (plenum_balance gm1 to _ _ _ _ _ _ Hg HV Hp HT EU) as (_ & B1 & B2).
  rewrite <- E1 in B1, B2. rewrite <- E2 in B2. rewrite <- Rplus_assoc, <- IM, <- Rplus_assoc, <- IE.
  remember (PlenaModel.turbine (st (S n))) as new' eqn:Enew. clear Enew.
  split.
  - unfold plenum_mass at 1. remember (plenum_mass to (PlenaModel.turbine (st n)) + snd (calls n) * (outlet to * flux_last (fst (calls n)) - turbine_flow to (PlenaModel.turbine (st n)))) as m.
    assert (Hm : / volume to * m <> 0). { intros Z0. rewrite Z0 in B2. unfold Rdiv in B2. rewrite Rinv_0, Rmult_0_r in B2. lra. }
    assert (m <> 0) by (intros ->; apply Hm; ring).
    rewrite B2. field. repeat split; lra.
  - unfold plenum_energy at 1. rewrite B1. field. lra.
Qed.
Print Assumptions C145_balance.

(** Balanced inflow leaves the plenum as it is. *)
Theorem C145_steady : forall (gm1 : R) (to : toptions) (old : plenum) (f_rho f_rhoe dt : R),
  0 < gm1 -> 0 < volume to -> 0 < p_pressure old -> 0 < p_temp old ->
  outlet to * f_rho = turbine_flow to old -> outlet to * f_rhoe = turbine_flow to old * enthalpy gm1 old ->
  let '(new, mdot) := UpdateTurbinePlenumState gm1 (1 / gm1) to old f_rho f_rhoe dt in
  p_pressure new = p_pressure old /\ p_temp new = p_temp old /\ mdot = outlet to * f_rho.
Proof.
  intros gm1 to old f_rho f_rhoe dt Hg HV Hp HT E1 E2.
  destruct (UpdateTurbinePlenumState gm1 (1 / gm1) to old f_rho f_rhoe dt) as [new mdot] eqn:EU.
  destruct (plenum_balance gm1 to _ _ _ _ _ _ Hg HV Hp HT EU) as (B0 & B1 & B2).
  rewrite E1 in *. rewrite E2 in *. rewrite !Rminus_diag_eq, !Rmult_0_r, !Rplus_0_r in * by reflexivity.
  assert (P : p_pressure new = p_pressure old) by (rewrite B1; unfold plenum_energy; field; lra).
  split; [exact P|]. split; [|exact B0]. rewrite B2, P. unfold plenum_mass. field. repeat split; lra.
Qed.
Print Assumptions C145_steady.
Example C145_example_steady : let to := mkTo (1 / 4) 2 20 in let old := mkPlenum 8 4 0 0 0 false in
  turbine_flow to old = 1 /\ outlet to * (1 / 2) = turbine_flow to old /\ enthalpy (2 / 5) old = 14 /\
  outlet to * 7 = turbine_flow to old * enthalpy (2 / 5) old.
Proof.
  cbv zeta. unfold turbine_flow, enthalpy; cbn. replace (sqrt 4) with 2 by (replace 4 with (2 * 2) by lra; now rewrite sqrt_square by lra).
  repeat split; lra.
Qed.

(** Pressure and temperature stay positive as long as the gas flows from the tube into the plenum and the turbine takes
    less than 1/gamma of the mass in the plenum within the step. *)
Theorem C145_positive_partial : forall (gm1 : R) (to : toptions) (old : plenum) (f_rho f_rhoe dt : R),
  0 < gm1 -> 0 < volume to -> 0 <= outlet to -> 0 < p_pressure old -> 0 < p_temp old -> 0 <= correlation to ->
  0 <= f_rho -> 0 <= f_rhoe -> 0 <= dt -> dt * (1 + gm1) * turbine_flow to old < plenum_mass to old ->
  let '(new, mdot) := UpdateTurbinePlenumState gm1 (1 / gm1) to old f_rho f_rhoe dt in
  0 < p_pressure new /\ 0 < p_temp new /\ 0 <= mdot.
Proof.
  intros gm1 to old f_rho f_rhoe dt Hg HV HA Hp HT Hc Hr He Hdt Hcfl.
  destruct (UpdateTurbinePlenumState gm1 (1 / gm1) to old f_rho f_rhoe dt) as [new mdot] eqn:EU.
  destruct (plenum_balance gm1 to _ _ _ _ _ _ Hg HV Hp HT EU) as (B0 & B1 & B2).
  assert (Hs : 0 < sqrt (p_temp old)) by now apply sqrt_lt_R0.
  assert (Hflow : 0 <= turbine_flow to old).
  { unfold turbine_flow. apply Rmult_le_pos; [apply Rmult_le_pos; lra|]. left. now apply Rinv_0_lt_compat. }
  assert (H1 : 0 <= dt * turbine_flow to old * gm1) by (apply Rmult_le_pos; [apply Rmult_le_pos|]; lra).
  assert (Hm : 0 < plenum_mass to old + dt * (outlet to * f_rho - turbine_flow to old)).
  { assert (0 <= dt * (outlet to * f_rho)) by (apply Rmult_le_pos; [lra|apply Rmult_le_pos; lra]). lra. }
  assert (HE : 0 < plenum_energy gm1 to old + dt * (outlet to * f_rhoe - turbine_flow to old * enthalpy gm1 old)).
  { assert (0 <= dt * (outlet to * f_rhoe)) by (apply Rmult_le_pos; [lra|apply Rmult_le_pos; lra]).
    assert (E : plenum_energy gm1 to old - dt * (turbine_flow to old * enthalpy gm1 old) =
                p_temp old / gm1 * (plenum_mass to old - dt * (1 + gm1) * turbine_flow to old)).
    { unfold enthalpy, plenum_energy, plenum_mass. set (k := turbine_flow to old). clearbody k. field. split; lra. }
    assert (0 < p_temp old / gm1 * (plenum_mass to old - dt * (1 + gm1) * turbine_flow to old)).
    { apply Rmult_lt_0_compat; [now apply Rdiv_lt_0_compat|lra]. }
    lra. }
  assert (P : 0 < p_pressure new). { rewrite B1. apply Rmult_lt_0_compat; [now apply Rdiv_lt_0_compat|exact HE]. }
  split; [exact P|]. split; [|now rewrite B0]. rewrite B2. apply Rdiv_lt_0_compat; [exact P|].
  apply Rmult_lt_0_compat; [now apply Rinv_0_lt_compat|exact Hm].
Qed.
Print Assumptions C145_positive_partial.
Example C145_example_positive : let to := mkTo (1 / 4) 2 20 in let old := mkPlenum 8 4 0 0 0 false in
  plenum_mass to old = 40 /\ turbine_flow to old = 1 /\ 1 * (1 + 2 / 5) * turbine_flow to old < plenum_mass to old.
Proof.
  cbv zeta. unfold turbine_flow, plenum_mass; cbn. replace (sqrt 4) with 2 by (replace 4 with (2 * 2) by lra; now rewrite sqrt_square by lra).
  repeat split; lra.
Qed.
(** No limit on the time step is enforced: without inflow the pressure becomes negative for every longer step. *)
Theorem C145_positive_refuted : forall (gm1 : R) (to : toptions) (old : plenum) (dt : R),
  0 < gm1 -> 0 < volume to -> 0 < p_pressure old -> 0 < p_temp old ->
  plenum_mass to old < dt * (1 + gm1) * turbine_flow to old ->
  p_pressure (fst (UpdateTurbinePlenumState gm1 (1 / gm1) to old 0 0 dt)) < 0.
Proof.
  intros gm1 to old dt Hg HV Hp HT Hcfl.
  destruct (UpdateTurbinePlenumState gm1 (1 / gm1) to old 0 0 dt) as [new mdot] eqn:EU. cbn [fst].
  destruct (plenum_balance gm1 to _ _ _ _ _ _ Hg HV Hp HT EU) as (_ & B1 & _). rewrite B1.
  assert (Hs : 0 < sqrt (p_temp old)) by now apply sqrt_lt_R0.
  assert (E : gm1 / volume to * (plenum_energy gm1 to old + dt * (outlet to * 0 - turbine_flow to old * enthalpy gm1 old)) =
              - (p_temp old / volume to * (dt * (1 + gm1) * turbine_flow to old - plenum_mass to old))).
  { unfold enthalpy, plenum_energy, plenum_mass. set (k := turbine_flow to old). clearbody k. field. repeat split; lra. }
  rewrite E. assert (0 < p_temp old / volume to * (dt * (1 + gm1) * turbine_flow to old - plenum_mass to old)).
  { apply Rmult_lt_0_compat; [now apply Rdiv_lt_0_compat|lra]. }
  lra.
Qed.
Print Assumptions C145_positive_refuted.

(** Two calls with a compressor at constant pressure ratio one: each call succeeds, and the plenum stays positive. *)
Definition ex_options : options := mkOpt 1 1 1 1 1 1 2 1 1 0 1 1 1 (1 / 2) 1.
Definition ex_tube : tube := let ps := [[mkTpatch 0 3 (fun _ => 1)]] in mkTube 0 3 ps ps ps.
Lemma ex_done (s : control) (c : call) : 0 < p_pressure (PlenaModel.turbine s) + p_pressure (c_turbine c) ->
  exists s', UpdatePlena (mkGas 1 1) ex_options s c = Done s'.
Proof.
  intros Hp. unfold UpdatePlena, UpdateTurbinePlenum, UpdateCompressorPlenum, UpdateCompressorFromRPM, pow. cbv zeta.
  destruct (Rlt_dec 0 (1 / 2 * (p_pressure (PlenaModel.turbine s) + p_pressure (c_turbine c)))) as [_|C]; [|exfalso; apply C; lra].
  cbn [bind rpm compressor PlenaModel.turbine].
  assert (E1 : CompressorPressureRatio ex_options (rpm s) = 1).
  { unfold CompressorPressureRatio, pratiomean, pratiovar, ex_options; cbn. unfold Rdiv. rewrite !Rmult_0_l. lra. }
  rewrite E1. destruct (Rlt_dec 0 1) as [_|C]; [|exfalso; lra].
  cbn [bind]. unfold ChangeRPM. cbn [compressor p_pressure rpm target inertial ex_options]. cbv zeta.
  destruct (Rlt_dec 1 1) as [C|_]; [exfalso; lra|].
  destruct (Rlt_dec _ 0) as [C|_]; [exfalso|eexists; reflexivity].
  assert (HPI := PI_RGT_0). assert (H2 : 0 < 2 * (PI * PI) * 1) by (assert (0 < PI * PI) by (apply Rmult_lt_0_compat; exact HPI); lra).
  replace ((2 * (PI * PI) * 1 * rpm s * rpm s + 0 * c_dt c) / (2 * (PI * PI) * 1)) with (rpm s * rpm s) in C by (field; lra).
  pose proof (Rle_0_sqr (rpm s)) as Q. unfold Rsqr in Q. lra.
Qed.
Example C145_example_balance : exists (calls : nat -> tube * R) (st : nat -> control),
  let to := mkTo (1 / 4) 1 20 in
  p_pressure (PlenaModel.turbine (st 0%nat)) = 1 /\ p_temp (PlenaModel.turbine (st 0%nat)) = 1 /\
  FeedbackTube (mkGas 1 1) ex_options (2 / 5) (1 / (2 / 5)) to (fst (calls 0%nat)) (snd (calls 0%nat)) (st 0%nat) = Done (st 1%nat) /\
  p_pressure (PlenaModel.turbine (st 1%nat)) = 401 / 400 /\ 0 < p_temp (PlenaModel.turbine (st 1%nat)).
Proof.
  set (s0 := mkControl 1 (mkPlenum 1 1 0 0 0 false) (mkPlenum 1 1 0 0 0 false) 0 0 0 0).
  assert (EU : UpdateTurbinePlenumState (2 / 5) (1 / (2 / 5)) (mkTo (1 / 4) 1 20) (PlenaModel.turbine s0) (flux_last ex_tube) (flux_rhoe_last ex_tube) 1 =
               (mkPlenum (401 / 400) (802 / 830) 0 0 0 false, 1 / 4)).
  { unfold UpdateTurbinePlenumState, flux_last, flux_rhoe_last, gather_face, local_face, allreduce. cbn. rewrite sqrt_1. apply pair_equal_spec; split; [f_equal; field|field]. }
  destruct (ex_done s0 (mkCall (1 / 4) (mkPlenum (401 / 400) (802 / 830) 0 0 0 false) (flux_first ex_tube) (flux_spec_first ex_tube) (flux_last ex_tube) 1)) as (s1 & E1).
  { cbn. lra. }
  exists (fun _ => (ex_tube, 1)), (fun k => match k with O => s0 | _ => s1 end). cbn [fst snd].
  split; [reflexivity|]. split; [reflexivity|].
  assert (EF : FeedbackTube (mkGas 1 1) ex_options (2 / 5) (1 / (2 / 5)) (mkTo (1 / 4) 1 20) ex_tube 1 s0 = Done s1)
    by (unfold FeedbackTube; rewrite EU; exact E1).
  split; [exact EF|]. apply update_turbine in E1. cbn in E1. destruct E1 as [-> ->]. lra.
Qed.
(** A call with two tubes that succeeds: the hypotheses of C145_control_plenum, and for one tube of C145_control_tube. *)
Example C145_example_control :
  let s0 := mkControl 1 (mkPlenum 1 1 0 0 0 false) (mkPlenum 1 1 0 0 0 false) 0 0 0 0 in
  let scratch := [[mkSfab (mkBox 0 0 7 0) (fun _ _ => mkCons 2 0 0 10)]] in
  let fluxes := [[mkFab (mkBox 0 0 8 0) (fun _ _ => 3)]] in
  decomposes 0 3 (concat (t_rho ex_tube)) /\ holds_flux (fun _ => 1) (concat (t_rho ex_tube)) /\
  (exists s', FeedbackPlenum (mkGas 1 1) ex_options (2 / 5) 1 1 (mkBox 1 1 0 0) (mkBox 0 0 7 0) scratch fluxes [ex_tube; ex_tube] 1 s0 = Done s').
Proof.
  cbv zeta. split; [|split].
  - split; [|split]; cbn.
    + constructor; [cbn; lia|constructor].
    + apply FOP_cons; [constructor|constructor].
    + intros i Hi. eexists. split; [left; reflexivity|cbn; lia].
  - intros p i [<-|[]] _. reflexivity.
  - unfold FeedbackPlenum. apply ex_done. cbn [c_turbine PlenaModel.turbine p_pressure].
    assert (E : p_pressure (turbine_boundary (2 / 5) 1 (mkBox 1 1 0 0) (mkBox 0 0 7 0) [[mkSfab (mkBox 0 0 7 0) (fun _ _ => mkCons 2 0 0 10)]]) = 4)
      by exact (proj1 C145_example_state).
    rewrite E. lra.
Qed.
