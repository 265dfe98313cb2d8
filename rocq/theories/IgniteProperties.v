(** C85 and C86: triggering detonations. *)
From Coq Require Import List ZArith Reals Lia Lra Bool Arith.
From Verif Require Import IgniteModel IgniteSpec IgniteProofs.
Import ListNotations.
Local Open Scope R_scope.

(** ** C85: when the mixture is ignited *)

(** For a positive offset the schedule is offset, offset + interval, offset + 2 interval, ..: after any history of calls for
    any levels, with n ignitions on this level so far, a call for the level ignites exactly if its time is later than
    offset + n * interval and the measured equivalence ratio exceeds the criterion.  Ignitions on other levels, the order of
    the calls and calls without ignition have no influence. *)
Theorem C85_schedule o levels history level time ratio : dbl_min < offset o -> 0 <= ignite_interval o -> (level < levels)%nat ->
  let before := fst (run_calls o (initial_times levels) history) in
  let n := ignitions level history before in
  let all := fst (run_calls o (initial_times levels) (history ++ [(level, time, ratio)])) in
  exists ignites, all = before ++ [ignites] /\
    (ignites = true <-> offset o + INR n * ignite_interval o < time /\ equivalence_ratio_criterium o < ratio).
Proof.
  intros Ho Hi Hl before n all.
  exists (fst (advance o (snd (run_calls o (initial_times levels) history)) level time ratio)). split.
  - unfold all. rewrite run_app. cbn [fst]. f_equal. cbn [run_calls]. destruct (advance _ _ _ _ _). reflexivity.
  - rewrite advance_next, next_history by (try assumption; unfold initial_times; rewrite repeat_length; exact Hl).
    fold before. fold n. unfold GetNextIgnitionTimePoint. rewrite nth_initial by exact Hl. destruct (Rlt_dec dbl_min (offset o)); [reflexivity|lra].
Qed.
Print Assumptions C85_schedule.

(** Hence there are at most 1 + (time - offset) / interval ignitions on a level up to a given time. *)
Theorem C85_not_too_often o levels history level tmax : dbl_min < offset o -> 0 <= ignite_interval o -> (level < levels)%nat ->
  (forall l t r, In (l, t, r) history -> t <= tmax) ->
  let n := ignitions level history (fst (run_calls o (initial_times levels) history)) in
  (0 < n)%nat -> offset o + INR (n - 1) * ignite_interval o < tmax.
Proof.
  intros Ho Hi Hl Ht n Hn. pose proof (not_too_often o levels level tmax history Hi Hl Ht Hn) as H. fold n in H.
  unfold GetNextIgnitionTimePoint in H. rewrite nth_initial in H by exact Hl. destruct (Rlt_dec dbl_min (offset o)); lra.
Qed.
Print Assumptions C85_not_too_often.

(** The equivalence ratio is the one of the finest level which covers the measurement position, whatever the number of
    processes and however cells and ghost cells are distributed among them, if the copies of the cell agree. *)
Theorem C85_measurement x n coarser level finer h2 o2 :
  length level = n -> (forall f, In f finer -> length f = n) ->
  (forall f process c, In f finer -> In process f -> In c process -> ~ (lo c <= x < hi c)) ->
  (forall process c, In process level -> In c process -> lo c <= x < hi c -> mh2 c = h2 /\ mo2 c = o2) ->
  (exists process c, In process level /\ In c process /\ lo c <= x < hi c) ->
  let m := GatherMoles x n (coarser ++ level :: finer) in
  equivalence_ratio (fst m) (snd m) = if Req_EM_T o2 0 then 0 else h2 / (2 * o2).
Proof.
  intros Hl Hf Hn Hs He m. unfold m, GatherMoles. rewrite rev_app_distr. cbn [rev]. rewrite <- app_assoc. cbn [app].
  destruct (gather_finest x h2 o2 n level (rev coarser) (rev finer) Hl) as (k & K & E); auto.
  - intros f I. apply Hf. apply in_rev. exact I.
  - intros f p c I. apply (Hn f p c). apply in_rev. exact I.
  - rewrite E. cbn [fst snd]. rewrite ratio_scale by exact K. unfold equivalence_ratio. destruct (Req_EM_T o2 0); [reflexivity|field; assumption].
Qed.
Print Assumptions C85_measurement.

(** If no cell covers the position the ratio is 0, so that nothing is ever ignited with a criterion which is not negative. *)
Theorem C85_no_measurement x n levels o times level time :
  (forall f, In f levels -> length f = n) ->
  (forall f process c, In f levels -> In process f -> In c process -> ~ (lo c <= x < hi c)) ->
  0 <= equivalence_ratio_criterium o ->
  let m := GatherMoles x n levels in
  advance o times level time (equivalence_ratio (fst m) (snd m)) = (false, times).
Proof.
  intros Hf Hn Hc m. unfold m, GatherMoles. rewrite gather_none.
  - cbn [fst snd]. unfold equivalence_ratio. destruct (Req_EM_T 0 0) as [_|N]; [|lra]. unfold advance.
    destruct (Rlt_dec _ time); [|reflexivity]. destruct (Rlt_dec _ 0); [lra|reflexivity].
  - intros f I. apply Hf. apply in_rev. exact I.
  - intros f p c I. apply (Hn f p c). apply in_rev. exact I.
Qed.
Print Assumptions C85_no_measurement.

(** The offset 0, which is the default, is ignored: before the first ignition the last one is taken to be at the smallest
    positive double, so that the first ignition waits for a whole interval.  A combustible mixture at time t with
    0 < t <= interval is not ignited, although t is later than the offset. *)
Theorem C85_zero_offset_refuted o levels level time ratio : offset o = 0 -> 0 < ignite_interval o -> (level < levels)%nat ->
  0 < time <= ignite_interval o -> equivalence_ratio_criterium o < ratio ->
  offset o + INR 0 * ignite_interval o < time /\
  fst (run_calls o (initial_times levels) [(level, time, ratio)]) = [false].
Proof.
  intros Ho Hi Hl Ht Hr. split; [rewrite Ho; cbn; lra|]. cbn [run_calls].
  assert (fst (advance o (initial_times levels) level time ratio) = false) as E.
  { destruct (fst (advance o (initial_times levels) level time ratio)) eqn:F; [|reflexivity]. apply advance_next in F as [F _].
    unfold GetNextIgnitionTimePoint in F. rewrite nth_initial in F by exact Hl. pose proof dbl_min_pos. destruct (Rlt_dec _ _); lra. }
  destruct (advance _ _ _ _ _) as [f ts]. cbn [fst] in E |- *. rewrite E. reflexivity.
Qed.
Print Assumptions C85_zero_offset_refuted.

(** The interval is not a lower bound for the time between two ignitions: if the fuel arrives late, missed ignitions are made
    up for.  Two ignitions can follow each other in an arbitrarily short time. *)
Theorem C85_interval_refuted o level eps ratio : dbl_min < offset o -> 0 < ignite_interval o -> 0 < eps ->
  equivalence_ratio_criterium o < ratio ->
  let t := offset o + 2 * ignite_interval o in
  fst (run_calls o (initial_times (S level)) [(level, t, ratio); (level, t + eps, ratio)]) = [true; true].
Proof.
  intros Ho Hi He Hr t.
  destruct (C85_schedule o (S level) [] level t ratio Ho (Rlt_le _ _ Hi) (le_n _)) as (b1 & E1 & F1). cbn [run_calls fst app ignitions] in E1, F1.
  destruct (C85_schedule o (S level) [(level, t, ratio)] level (t + eps) ratio Ho (Rlt_le _ _ Hi) (le_n _)) as (b2 & E2 & F2).
  cbn [run_calls fst app] in E1. 
  assert (b1 = true) as -> by (apply F1; unfold t; cbn [INR]; lra).
  change ([(level, t, ratio)] ++ [(level, t + eps, ratio)]) with [(level, t, ratio); (level, t + eps, ratio)] in E2.
  assert (fst (run_calls o (initial_times (S level)) [(level, t, ratio)]) = [true]) as E by exact E1.
  rewrite E in E2, F2. cbn [ignitions] in F2. rewrite Nat.eqb_refl in F2. cbn [andb Nat.add INR] in F2.
  assert (b2 = true) as -> by (apply F2; unfold t; cbn [INR]; lra).
  exact E2.
Qed.
Print Assumptions C85_interval_refuted.

Definition example_options : ignite_options := mkIgniteOptions 1 (95 / 100) 300 2000 (5 / 100) (1 / 2) (1 / 10) (1 / 50).

Lemma dbl_min_small : dbl_min < 1 / 10.
Proof.
  change dbl_min with (/ 2 ^ Pos.to_nat 1022). replace (Pos.to_nat 1022) with (4 + Pos.to_nat 1018)%nat by lia. rewrite pow_add.
  assert (1 <= 2 ^ Pos.to_nat 1018) by (apply pow_R1_Rle; lra).
  apply Rle_lt_trans with (/ 16); [|lra]. apply Rinv_le_contravar; lra.
Qed.

(** One level: an early call, a late one without fuel, one with fuel, and one before the next scheduled time. *)
Example C85_example :
  let o := example_options in
  dbl_min < offset o /\ 0 <= ignite_interval o /\
  fst (run_calls o (initial_times 1) [(0%nat, 1 / 20, 1); (0%nat, 11 / 100, 0); (0%nat, 11 / 100, 1); (0%nat, 115 / 1000, 1)]) = [false; false; true; false].
Proof.
  intros o. split; [cbn; apply dbl_min_small|]. split; [cbn; lra|].
  pose proof dbl_min_small.
  unfold run_calls, initial_times, repeat, advance, GetNextIgnitionTimePoint, o, example_options. cbn [nth offset ignite_interval equivalence_ratio_criterium].
  repeat (match goal with |- context [Rlt_dec ?a ?b] =>
            lazymatch a with context [Rlt_dec _ _] => fail | _ => destruct (Rlt_dec a b); try (exfalso; lra) end
          end; cbn [SetLastIgnitionTimePoint nth]).
  reflexivity.
Qed.

(** Two processes, the second one has the cell as a ghost cell. *)
Example C85_measurement_example :
  let level := [[mkMCell 0 1 2 1; mkMCell 1 2 4 2]; [mkMCell 1 2 4 2; mkMCell 2 3 8 1]] in
  let m := GatherMoles (3 / 2) 2 [level] in
  m = (8, 4) /\ equivalence_ratio (fst m) (snd m) = 1.
Proof.
  intros level m. assert (m = (8, 4)) as ->; [|split; [reflexivity|]].
  - unfold m, GatherMoles, level, gather, local_moles. cbn [rev app repeat combine map fst snd fold_left lo hi mh2 mo2].
    repeat (match goal with |- context [Rlt_dec ?a ?b] => destruct (Rlt_dec a b); try (exfalso; lra)
                          | |- context [Rle_dec ?a ?b] => destruct (Rle_dec a b); try (exfalso; lra) end).
    cbn. f_equal; ring.
  - cbn [fst snd]. unfold equivalence_ratio. destruct (Req_EM_T 4 0); lra.
Qed.

(** ** C86: what an ignition does to the gas *)

(** The ignition is at the given position, or at the nearest position one cell away from the ends of the domain.  No cell changes its density,
    none gets colder.  Within the width of the ramp the temperature is raised to a profile which falls off linearly from the
    high to the low temperature, the composition stays; left of it the gas is burnt at its temperature; cells right of it are
    not touched at all. *)
Theorem C86_profile_partial burn o dom_lo dom_hi dx x c : 0 < ramp_width o -> temperature_low o <= temperature_high o ->
  0 < dx -> dom_lo + 2 * dx <= dom_hi ->
  let x0 := ignite_at o dom_lo dom_hi dx in
  let c' := ignite_cell burn o x0 x c in
  (dom_lo + dx <= x0 <= dom_hi - dx /\ (dom_lo + dx <= ignite_position o <= dom_hi - dx -> x0 = ignite_position o) /\
   (ignite_position o <= dom_lo + dx -> x0 = dom_lo + dx) /\ (dom_hi - dx <= ignite_position o -> x0 = dom_hi - dx)) /\
  g_rho c' = g_rho c /\ g_T c <= g_T c' <= Rmax (g_T c) (temperature_high o) /\
  (x < x0 - ramp_width o -> g_T c' = g_T c /\ g_Y c' = burn (g_rho c) 2000 (g_Y c)) /\
  (x0 - ramp_width o <= x < x0 + ramp_width o ->
     g_Y c' = g_Y c /\ g_T c' = Rmax (g_T c) (ramp (temperature_low o) (temperature_high o) x0 (ramp_width o) x)) /\
  (x0 + ramp_width o <= x -> c' = c).
Proof.
  intros Hw HT Hdx Hd x0 c'. split.
  { unfold x0, ignite_at, clamp. destruct (Rlt_dec _ _); [repeat split; intros; lra|]. destruct (Rlt_dec _ _); repeat split; intros; lra. }
  clearbody x0.
  assert (forall T, g_T c <= Rmax (g_T c) T) as M by (intros; apply Rmax_l).
  unfold c', ignite_cell.
  destruct (Rlt_dec x (x0 - ramp_width o)) as [A|A].
  - cbn [g_rho g_T g_Y]. repeat split; try lra; try apply M; intros; try reflexivity; exfalso; lra.
  - destruct (Rle_dec (x0 - ramp_width o) x) as [B|B]; [|lra]. destruct (Rlt_dec x x0) as [C|C].
    + cbn [g_rho g_T g_Y]. rewrite ramp_left by lra.
      pose proof (ramp_bounds (temperature_low o) (temperature_high o) x0 (ramp_width o) x Hw HT) as Bd.
      specialize (Bd ltac:(apply Rabs_le; lra)).
      repeat split; try lra; try apply M; intros; try reflexivity; try (exfalso; lra).
      apply Rmax_lub; [apply Rmax_l|]. apply Rle_trans with (temperature_high o); [lra|apply Rmax_r].
    + destruct (Rle_dec x0 x) as [D|D]; [|lra]. destruct (Rlt_dec x (x0 + ramp_width o)) as [E|E].
      * cbn [g_rho g_T g_Y]. rewrite ramp_right by lra.
        pose proof (ramp_bounds (temperature_low o) (temperature_high o) x0 (ramp_width o) x Hw HT) as Bd.
        specialize (Bd ltac:(apply Rabs_le; lra)).
        repeat split; try lra; try apply M; intros; try reflexivity; try (exfalso; lra).
        apply Rmax_lub; [apply Rmax_l|]. apply Rle_trans with (temperature_high o); [lra|apply Rmax_r].
      * repeat split; try lra; try apply M; intros; try reflexivity; try (exfalso; lra).
Qed.
Print Assumptions C86_profile_partial.

(** The missing part: an ignition should heat the gas, but it also stops it.  Every cell left of the end of the ramp loses its
    momentum, whatever its velocity. *)
Theorem C86_momentum_refuted burn o x0 x c : 0 < ramp_width o -> g_momentum c <> 0 ->
  (g_momentum (ignite_cell burn o x0 x c) = g_momentum c <-> x0 + ramp_width o <= x) /\
  (x < x0 + ramp_width o -> g_momentum (ignite_cell burn o x0 x c) = 0).
Proof.
  intros Hw Hm. unfold ignite_cell.
  destruct (Rlt_dec x (x0 - ramp_width o)); [cbn [g_momentum]; rewrite Rmult_0_r; repeat split; intros; try lra; congruence|].
  destruct (Rle_dec (x0 - ramp_width o) x); [|lra]. destruct (Rlt_dec x x0); [cbn [g_momentum]; rewrite Rmult_0_r; repeat split; intros; try lra; congruence|].
  destruct (Rle_dec x0 x); [|lra]. destruct (Rlt_dec x (x0 + ramp_width o)); [cbn [g_momentum]; rewrite Rmult_0_r; repeat split; intros; try lra; congruence|].
  repeat split; intros; lra.
Qed.
Print Assumptions C86_momentum_refuted.

Example C86_example :
  let o := example_options in
  let c := mkGasCell 1 10 300 [1] in
  ignite_at o 0 1 (1 / 100) = 1 / 2 /\
  ignite_cell (fun _ _ Y => Y) o (1 / 2) (1 / 2) c = mkGasCell 1 0 2000 [1] /\
  ignite_cell (fun _ _ Y => Y) o (1 / 2) (3 / 4) c = c.
Proof.
  intros o c. unfold o, example_options, c, ignite_at, clamp, ignite_cell. cbn [ignite_position ramp_width temperature_low temperature_high g_rho g_T g_Y].
  split; [|split].
  - destruct (Rlt_dec _ _); [lra|]. destruct (Rlt_dec _ _); lra.
  - destruct (Rlt_dec _ _); [lra|]. destruct (Rle_dec _ _); [|lra]. destruct (Rlt_dec _ _); [lra|]. destruct (Rle_dec _ _); [|lra]. destruct (Rlt_dec _ _); [|lra].
    f_equal; [lra|]. replace ((1 / 2 - 1 / 2) / (5 / 100) * 300 + (1 - (1 / 2 - 1 / 2) / (5 / 100)) * 2000) with 2000 by field.
    apply Rmax_right. lra.
  - destruct (Rlt_dec _ _); [lra|]. destruct (Rle_dec _ _); [|lra]. destruct (Rlt_dec _ _); [lra|]. destruct (Rle_dec _ _); [|lra]. destruct (Rlt_dec _ _); [lra|reflexivity].
Qed.
