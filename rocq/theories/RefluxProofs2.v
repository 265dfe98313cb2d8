(** Flux registers and the main induction. *)
From Coq Require Import List ZArith Reals Lia Lra Bool Permutation.
From Verif Require Import ArrayModel ArraySpec ArrayProofs BoxProofs UpdateProofs3 UpdateProofs4 RefluxModel RefluxSpec RefluxProofs.
Import ListNotations.
Local Open Scope Z_scope.

(** ** Reflux *)

Lemma add_to_sum u c v W : NoDup W -> sum (map (add_to u c v) W) = (sum (map u W) + if mem c W then v else 0)%R.
Proof.
  induction 1 as [|x W Hx HW IH]; [cbn; lra|]. rewrite !sum_cons, IH. unfold add_to at 1.
  destruct (list_eq_dec Z.eq_dec x c) as [->|Hne].
  - assert (mem c W = false) as -> by (apply mem_false; assumption).
    assert (mem c (c :: W) = true) as -> by (apply mem_spec; left; reflexivity). lra.
  - assert (mem c (x :: W) = mem c W) as ->.
    { destruct (mem c W) eqn:E; [apply mem_spec in E; apply mem_spec; right; assumption|].
      apply mem_false in E. apply mem_false. intros [H|H]; [congruence|contradiction]. }
    lra.
Qed.

Definition correction (vol : R) (d : nat) (reg : register) (W : list index) (c : index) : R :=
  ((if mem (right_of c d) W then reg d false c / vol else 0) - (if mem (left_of c d) W then reg d true c / vol else 0))%R.

Lemma reflux_patch_sum vol d reg W patch u :
  NoDup W -> (forall c, In c patch -> ~ In c W) ->
  sum (map (Reflux_patch vol d reg u patch) W) = (sum (map u W) + sum (map (correction vol d reg W) patch))%R.
Proof.
  intros HW Hdis. unfold Reflux_patch.
  assert (forall l u, sum (map (fold_left (fun u c =>
       let u1 := if mem (Shift c d (-1)) patch then u
                 else add_to u (Shift c d (-1)) (- 1 * reg d true c / vol)%R in
       if mem (Shift c d 1) patch then u1 else add_to u1 (Shift c d 1) (1 * reg d false c / vol)%R) l u) W) =
     (sum (map u W) + sum (map (correction vol d reg W) l))%R) as H; [|apply H].
  induction l as [|c l IH]; intros v; [cbn [fold_left map]; unfold sum at 3; cbn; lra|].
  cbn [fold_left]. rewrite IH, sum_cons. rewrite <- Rplus_assoc. f_equal. unfold correction.
  fold (left_of c d). fold (right_of c d).
  assert (forall x, In x patch -> mem x W = false) as Hm by (intros x Hx; apply mem_false, Hdis, Hx).
  cbv zeta.
  destruct (mem (right_of c d) patch) eqn:E1; destruct (mem (left_of c d) patch) eqn:E2.
  - apply mem_spec in E1, E2. rewrite (Hm _ E1), (Hm _ E2). lra.
  - apply mem_spec in E1. rewrite (Hm _ E1), add_to_sum by assumption.
    destruct (mem (left_of c d) W); unfold Rdiv; lra.
  - apply mem_spec in E2. rewrite (Hm _ E2), add_to_sum by assumption.
    destruct (mem (right_of c d) W); unfold Rdiv; lra.
  - rewrite !add_to_sum by assumption. destruct (mem (right_of c d) W), (mem (left_of c d) W); unfold Rdiv; lra.
Qed.

Lemma reflux_sum vol d reg W f u :
  NoDup W -> (forall c, In c (covered f) -> ~ In c W) ->
  sum (map (Reflux vol f d reg u) W) = (sum (map u W) + sum (map (correction vol d reg W) (covered f)))%R.
Proof.
  intros HW. unfold Reflux, covered. revert u. induction (ref_patches f) as [|p ps IH]; intros u Hd.
  - cbn. lra.
  - cbn [fold_left concat] in *. rewrite IH by (intros c Hc; apply Hd, in_or_app; right; assumption).
    rewrite reflux_patch_sum; [|assumption|intros c Hc; apply Hd, in_or_app; left; assumption].
    rewrite map_app, sum_app. lra.
Qed.

Lemma correction_sum rank dx f fine u W :
  NoDup W -> (forall c, In c (covered f) -> ~ In c W) ->
  sum (map (ApplyFluxCorrection rank dx f fine u) W) =
  (sum (map u W) + sum (map (fun d => sum (map (correction (volume dx) d (coarse_fine fine) W) (covered f))) (seq 0 rank)))%R.
Proof.
  intros HW Hd. unfold ApplyFluxCorrection. generalize (seq 0 rank) as ds. intros ds. revert u.
  induction ds as [|d ds IH]; intros u; [cbn; lra|].
  cbn [fold_left]. rewrite IH, reflux_sum by assumption. rewrite sum_cons. lra.
Qed.

(** ** Split steps of one level *)

Definition step_change (dx : list R) (s : split_step) (c : index) : R :=
  (st_dt s / nth (st_dir s) dx 0 * (st_flux s c - st_flux s (right_of c (st_dir s))))%R.

Definition own_amount (own : option (list Z)) (dx : list R) (steps : list split_step) (d : nat) (low : bool) (c : index) : R :=
  match own with Some r => sum (map (steps_amount dx steps d low) (edge r d low c)) | None => 0%R end.

Lemma fine_faces_sum r d low c F :
  sum (map F (fine_faces r d low c)) = sum (map (fun x => F (if low then x else right_of x d)) (edge r d low c)).
Proof. unfold fine_faces, edge. destruct low; [reflexivity|]. rewrite map_map. reflexivity. Qed.

Lemma steps_amount_cons dx s steps d low c :
  steps_amount dx (s :: steps) d low c =
  ((if Nat.eqb (st_dir s) d then st_dt s * (volume dx / nth d dx 0) * st_flux s (if low then c else right_of c d) else 0) +
   steps_amount dx steps d low c)%R.
Proof. reflexivity. Qed.

Lemma own_amount_cons own dx s steps d low c :
  own_amount own dx (s :: steps) d low c =
  ((match own with
    | Some r => if Nat.eqb d (st_dir s) then vol_dt_over_dx dx s * sum (map (st_flux s) (fine_faces r d low c)) else 0
    | None => 0 end) + own_amount own dx steps d low c)%R.
Proof.
  destruct own as [r|]; [|cbn; lra]. cbn [own_amount].
  rewrite (sum_ext (steps_amount dx (s :: steps) d low)
     (fun x => (if Nat.eqb (st_dir s) d then st_dt s * (volume dx / nth d dx 0) * st_flux s (if low then x else right_of x d) else 0)
               + steps_amount dx steps d low x)%R) by (intros; apply steps_amount_cons).
  rewrite sum_plus. f_equal. rewrite fine_faces_sum. rewrite (Nat.eqb_sym d).
  destruct (Nat.eqb_spec (st_dir s) d) as [<-|].
  - unfold vol_dt_over_dx. rewrite <- sum_scal. apply sum_ext. intros x _. unfold Rdiv. ring.
  - apply sum_zero. intros; reflexivity.
Qed.

Lemma steps_fold own cells dx steps : forall this finer this' finer',
  fold_left (AdvanceLevel_Split own cells dx) steps (this, finer) = (this', finer') ->
  (forall c, In c cells -> scratch this' c = (scratch this c + sum (map (fun s => step_change dx s c) steps))%R) /\
  (forall d low c, coarse_fine this' d low c = (coarse_fine this d low c + own_amount own dx steps d low c)%R) /\
  match finer with
  | [] => finer' = []
  | next :: rest => exists next', finer' = next' :: rest /\ scratch next' = scratch next /\
      forall d low c, coarse_fine next' d low c = (coarse_fine next d low c - steps_amount dx steps d low c)%R
  end.
Proof.
  induction steps as [|s steps IH]; intros this finer this' finer' E.
  - cbn [fold_left] in E. injection E as <- <-. split; [intros; cbn; lra|]. split.
    + intros d low c. destruct own; [|cbn; lra]. cbn [own_amount]. rewrite sum_zero; [lra|]. intros; reflexivity.
    + destruct finer as [|next rest]; [reflexivity|]. exists next. split; [reflexivity|]. split; [reflexivity|]. intros. cbn. lra.
  - cbn [fold_left] in E.
    destruct (AdvanceLevel_Split own cells dx (this, finer) s) as [this1 finer1] eqn:E1.
    destruct (IH _ _ _ _ E) as (H1 & H2 & H3).
    unfold AdvanceLevel_Split, AccumulateCoarseFineFluxes in E1.
    assert (scratch this1 = UpdateConservatively cells dx s (scratch this)) as S1.
    { destruct finer; injection E1 as <- _; destruct own; reflexivity. }
    assert (forall d low c, coarse_fine this1 d low c = (coarse_fine this d low c +
       match own with
       | Some r => if Nat.eqb d (st_dir s) then vol_dt_over_dx dx s * sum (map (st_flux s) (fine_faces r d low c)) else 0
       | None => 0 end)%R) as S2.
    { intros d low c. destruct finer; injection E1 as <- _; destruct own as [r|]; cbn [coarse_fine]; try lra;
        unfold FineAdd; destruct (Nat.eqb d (st_dir s)); lra. }
    split; [|split].
    + intros c Hc. rewrite (H1 c Hc), S1, sum_cons. unfold UpdateConservatively.
      rewrite (proj2 (mem_spec c cells) Hc). unfold step_change at 2. unfold right_of. lra.
    + intros d low c. rewrite H2, S2, own_amount_cons. lra.
    + destruct finer as [|next rest].
      * injection E1 as _ <-. exact H3.
      * injection E1 as _ <-. destruct H3 as (next' & N1 & N2 & N3). exists next'. split; [assumption|]. split; [assumption|].
        intros d low c. rewrite N3, steps_amount_cons. cbn [coarse_fine]. unfold CrseInit.
        rewrite (Nat.eqb_sym d). destruct (Nat.eqb_spec (st_dir s) d) as [<-|]; [|lra].
        unfold vol_dt_over_dx, right_of, Rdiv. ring.
Qed.

(** All directions together. *)
Lemma sum_delta (g : nat -> R) k m a : (a <= k < a + m)%nat ->
  sum (map (fun d => if Nat.eqb k d then g d else 0%R) (seq a m)) = g k.
Proof.
  revert a; induction m as [|m IH]; intros a H; [lia|]. cbn [seq]. rewrite sum_cons.
  destruct (Nat.eqb_spec k a) as [->|Hne].
  - rewrite sum_zero; [lra|]. intros x Hx. apply in_seq in Hx. destruct (Nat.eqb_spec a x); [lia|reflexivity].
  - rewrite IH by lia. lra.
Qed.

Lemma steps_directions rank dx steps c :
  volume dx <> 0%R -> Forall (fun s => (st_dir s < rank)%nat) steps ->
  (volume dx * sum (map (fun s => step_change dx s c) steps) =
   sum (map (fun d => steps_amount dx steps d true c - steps_amount dx steps d false c) (seq 0 rank)))%R.
Proof.
  intros Hv. induction 1 as [|s steps Hs Hst IH].
  - transitivity 0%R; [cbn; lra|]. symmetry. apply sum_zero. intros. unfold steps_amount. cbn. lra.
  - rewrite sum_cons, Rmult_plus_distr_l, IH.
    rewrite (sum_ext (fun d => steps_amount dx (s :: steps) d true c - steps_amount dx (s :: steps) d false c)%R
       (fun d => (if Nat.eqb (st_dir s) d
                  then st_dt s * (volume dx / nth d dx 0) * (st_flux s c - st_flux s (right_of c d)) else 0) +
                 (steps_amount dx steps d true c - steps_amount dx steps d false c))%R).
    + rewrite sum_plus. f_equal.
      rewrite (sum_delta (fun d => st_dt s * (volume dx / nth d dx 0) * (st_flux s c - st_flux s (right_of c d)))%R) by lia.
      unfold step_change, Rdiv. ring.
    + intros d _. rewrite !steps_amount_cons. destruct (Nat.eqb (st_dir s) d); cbn; lra.
Qed.

Lemma amount_high_low dx steps d c : steps_amount dx steps d false c = steps_amount dx steps d true (right_of c d).
Proof. reflexivity. Qed.

Lemma NoDup_app {A} (l m : list A) : NoDup l -> NoDup m -> (forall x, In x l -> ~ In x m) -> NoDup (l ++ m).
Proof.
  induction 1 as [|x l Hx Hl IH]; intros Hm Hd; [assumption|]. cbn [app]. constructor.
  - intros H. apply in_app_or in H as [H|H]; [contradiction|]. apply (Hd x); [left; reflexivity|assumption].
  - apply IH; [assumption|]. intros y Hy. apply Hd. right. assumption.
Qed.

(** ** One level with a finer level: the balance in one direction *)
Lemma balance n d V C (S Plo Phi Rlo Rhi : index -> R) :
  NoDup V -> NoDup C -> has_rank n V -> (forall c, In c C -> In c V) -> (d < n)%nat ->
  let W := filter (fun c => negb (mem c C)) V in
  (* registers: fine amount minus coarse amount, where they are used *)
  (forall c, In c C -> In (left_of c d) W -> Rlo c = (Plo c - S c)%R) ->
  (forall c, In c C -> In (right_of c d) W -> Rhi c = (Phi c - S (right_of c d))%R) ->
  (sum (map (fun c => S c - S (right_of c d)) W) +
   sum (map (fun c => (if mem (right_of c d) W then Rhi c else 0) - (if mem (left_of c d) W then Rlo c else 0)) C) +
   (sum (map Plo (without_left C C d)) - sum (map Phi (without_right C C d))) =
   sum (map (fun c => if mem c C then Plo c else S c) (without_left V V d)) -
   sum (map (fun c => if mem c C then Phi c else S (right_of c d)) (without_right V V d)))%R.
Proof.
  intros NV NC RV HCV Hd W HRlo HRhi.
  assert (NoDup W) as NW by (apply NoDup_filter; assumption).
  assert (has_rank n W) as RW by (intros c Hc; apply filter_In in Hc as [Hc _]; apply RV; assumption).
  assert (has_rank n C) as RC by (intros c Hc; apply RV, HCV, Hc).
  assert (forall c, In c W <-> In c V /\ ~ In c C) as HW.
  { intros c. unfold W. rewrite filter_In, negb_true_iff, mem_false. reflexivity. }
  assert (forall c, mem c V = (mem c C || mem c W)%bool) as HmV.
  { intros c. destruct (mem c V) eqn:E; symmetry.
    - apply mem_spec in E. apply orb_true_iff. rewrite !mem_spec, HW. destruct (in_dec (list_eq_dec Z.eq_dec) c C); auto.
    - apply mem_false in E. apply orb_false_iff. rewrite !mem_false, HW. split; [intros H; apply E, HCV, H|tauto]. }
  assert (forall c, In c W -> mem c C = false) as HmC by (intros c Hc; apply mem_false; apply HW in Hc; tauto).
  assert (forall c, mem c C = true -> mem c W = false) as HCW
    by (intros c Hc; apply mem_false; rewrite HW; apply mem_spec in Hc; tauto).
  assert (Permutation V (C ++ W)) as PV.
  { apply NoDup_Permutation; [assumption| |].
    - apply NoDup_app; try assumption. intros c H1 H2. apply HW in H2. tauto.
    - intros c. rewrite in_app_iff, HW. split; [intros H; destruct (in_dec (list_eq_dec Z.eq_dec) c C); auto|].
      intros [H|[H _]]; auto. }
  (* the right hand side *)
  assert (forall g h : index -> R, sum (map (fun c => if mem c C then g c else h c) (without_left V V d)) =
     (sum (map (fun c => if mem (left_of c d) V then 0 else g c) C) + sum (map (fun c => if mem (left_of c d) V then 0 else h c) W))%R) as RL.
  { intros g h. unfold without_left. rewrite sum_filter_if. rewrite (sum_map_perm _ _ _ PV), map_app, sum_app. f_equal.
    - apply sum_ext. intros c Hc. rewrite (proj2 (mem_spec c C) Hc). destruct (mem (left_of c d) V); reflexivity.
    - apply sum_ext. intros c Hc. rewrite (HmC c Hc). destruct (mem (left_of c d) V); reflexivity. }
  assert (forall g h : index -> R, sum (map (fun c => if mem c C then g c else h c) (without_right V V d)) =
     (sum (map (fun c => if mem (right_of c d) V then 0 else g c) C) + sum (map (fun c => if mem (right_of c d) V then 0 else h c) W))%R) as RR.
  { intros g h. unfold without_right. rewrite sum_filter_if. rewrite (sum_map_perm _ _ _ PV), map_app, sum_app. f_equal.
    - apply sum_ext. intros c Hc. rewrite (proj2 (mem_spec c C) Hc). destruct (mem (right_of c d) V); reflexivity.
    - apply sum_ext. intros c Hc. rewrite (HmC c Hc). destruct (mem (right_of c d) V); reflexivity. }
  rewrite RL, RR. clear RL RR.
  rewrite (telescope_set n W d S) by assumption.
  unfold without_left, without_right. rewrite !sum_filter_if, sum_minus.
  (* W: left neighbour outside W is outside V or in C *)
  rewrite (sum_ext (fun x => if negb (mem (left_of x d) W) then S x else 0%R)
     (fun x => (if mem (left_of x d) V then 0 else S x) + (if mem (left_of x d) C then S x else 0))%R W).
  2:{ intros c _. rewrite HmV. pose proof (HCW (left_of c d)). destruct (mem (left_of c d) C); cbn [orb].
      - rewrite H by reflexivity. cbn. lra.
      - destruct (mem (left_of c d) W); cbn; lra. }
  rewrite (sum_ext (fun x => if negb (mem (right_of x d) W) then S (right_of x d) else 0%R)
     (fun x => (if mem (right_of x d) V then 0 else S (right_of x d)) + (if mem (right_of x d) C then S (right_of x d) else 0))%R W).
  2:{ intros c _. rewrite HmV. pose proof (HCW (right_of c d)). destruct (mem (right_of c d) C); cbn [orb].
      - rewrite H by reflexivity. cbn. lra.
      - destruct (mem (right_of c d) W); cbn; lra. }
  rewrite (sum_ext (fun x => if negb (mem (left_of x d) C) then Plo x else 0%R)
     (fun x => (if mem (left_of x d) V then 0 else Plo x) + ((if mem (left_of x d) W then Rlo x else 0) + (if mem (left_of x d) W then S x else 0)))%R C).
  2:{ intros c Hc. rewrite HmV. pose proof (HCW (left_of c d)) as HH. destruct (mem (left_of c d) C) eqn:E; cbn [orb].
      - rewrite HH by reflexivity. cbn. lra.
      - destruct (mem (left_of c d) W) eqn:E2; cbn; [|lra]. apply mem_spec in E2. rewrite (HRlo c Hc E2). lra. }
  rewrite (sum_ext (fun x => if negb (mem (right_of x d) C) then Phi x else 0%R)
     (fun x => (if mem (right_of x d) V then 0 else Phi x) + ((if mem (right_of x d) W then Rhi x else 0) + (if mem (right_of x d) W then S (right_of x d) else 0)))%R C).
  2:{ intros c Hc. rewrite HmV. pose proof (HCW (right_of c d)) as HH. destruct (mem (right_of c d) C) eqn:E; cbn [orb].
      - rewrite HH by reflexivity. cbn. lra.
      - destruct (mem (right_of c d) W) eqn:E2; cbn; [|lra]. apply mem_spec in E2. rewrite (HRhi c Hc E2). lra. }
  rewrite !sum_plus.
  pose proof (swap_sides n W C d S NW NC RW RC Hd) as X1.
  pose proof (swap_sides n C W d S NC NW RC RW Hd) as X2.
  rewrite !sum_filter_if in X1, X2. lra.
Qed.
