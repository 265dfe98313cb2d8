(** Conservation for any number of levels. *)
From Coq Require Import List ZArith Reals Lia Lra Bool Permutation.
From Verif Require Import ArrayModel ArraySpec ArrayProofs BoxProofs UpdateProofs3 UpdateProofs4 RefluxModel RefluxSpec RefluxProofs RefluxProofs2.
Import ListNotations.
Local Open Scope Z_scope.

Definition steps_of (p : plan) : list split_step := let '(Plan _ steps) := p in steps.

Lemma volume_nonzero dx : Forall (fun h => h <> 0%R) dx -> volume dx <> 0%R.
Proof.
  unfold volume. induction 1 as [|h dx Hh Hd IH]; cbn [fold_right]; [lra|]. apply Rmult_integral_contrapositive_currified; assumption.
Qed.

Lemma refined_dx_nonzero f dx : Forall (fun h => h <> 0%R) dx -> Forall (fun r => 0 < r) (ref_ratio f) ->
  Forall (fun h => h <> 0%R) (refined_dx f dx).
Proof.
  unfold refined_dx. intros H. revert H. generalize (ref_ratio f) as r. intros r H. revert r.
  induction H as [|h dx Hh Hd IH]; intros r Hr; [constructor|]. destruct r as [|z r]; [constructor|].
  inversion Hr; subst. unfold map2 in *. cbn [combine map fst snd]. constructor; [|apply IH; assumption].
  unfold Rdiv. apply Rmult_integral_contrapositive_currified; [assumption|]. apply Rinv_neq_0_compat.
  apply not_0_IZR. lia.
Qed.

Lemma wf_cells rank fines cells : well_formed rank fines cells -> NoDup cells /\ has_rank rank cells.
Proof. destruct fines; cbn [well_formed]; intros (H1 & H2 & _); split; assumption. Qed.

Lemma amount_uncovered fines dx p d low x :
  match fines with [] => True | f :: _ => mem x (covered f) = false end ->
  amount fines dx p d low x = steps_amount dx (steps_of p) d low x.
Proof. destruct p as [subs steps], fines as [|f fines]; cbn [amount steps_of]; intros H; [reflexivity|]. rewrite H. reflexivity. Qed.

Lemma plan_ok_subs rank subs steps : plan_ok rank (Plan subs steps) ->
  Forall (fun s => (st_dir s < rank)%nat) steps /\ Forall (plan_ok rank) subs.
Proof.
  cbn [plan_ok]. intros [H1 H2]. split; [assumption|]. induction subs as [|q r IH]; [constructor|].
  destruct H2 as [H2 H3]. constructor; [assumption|]. apply IH; assumption.
Qed.

Definition head_register (data : list level_data) : register :=
  match data with [] => fun _ _ _ => 0%R | l :: _ => coarse_fine l end.

Lemma advance_conserves rank fines : forall own cells dx p data domain,
  length data = S (length fines) -> well_formed rank fines cells -> nested rank fines cells domain ->
  (forall c, In c cells -> domain c) -> plan_ok rank p -> Forall (fun h => h <> 0%R) dx ->
  let data' := AdvanceLevel rank own fines cells dx p data in
  length data' = length data /\
  total fines cells dx (map scratch data') = (total fines cells dx (map scratch data) + inflow rank fines cells dx p)%R /\
  (forall d low c, head_register data' d low c = (head_register data d low c + own_amount own dx (steps_of p) d low c)%R).
Proof.
  induction fines as [|f fines IH]; intros own cells dx [subs steps] data domain Hlen Hwf Hnest Hdom Hp Hdx data'.
  - destruct data as [|this [|? ?]]; try discriminate Hlen. unfold data'. cbn [AdvanceLevel].
    destruct (fold_left (AdvanceLevel_Split own cells dx) steps (this, [])) as [this1 finer1] eqn:E.
    destruct (steps_fold _ _ _ _ _ _ _ _ E) as (H1 & H2 & _).
    apply plan_ok_subs in Hp as [Hst _]. pose proof (volume_nonzero dx Hdx) as Hv.
    destruct (wf_cells _ _ _ Hwf) as [Hnd Hrk].
    split; [reflexivity|]. split; [|exact H2].
    cbn [map total]. rewrite (sum_ext (scratch this1) (fun c => scratch this c + sum (map (fun s => step_change dx s c) steps))%R) by assumption.
    rewrite sum_plus, Rmult_plus_distr_l. f_equal. rewrite <- sum_scal.
    rewrite (sum_ext (fun c => volume dx * sum (map (fun s => step_change dx s c) steps))%R
       (fun c => sum (map (fun d => steps_amount dx steps d true c - steps_amount dx steps d false c)%R (seq 0 rank))))
      by (intros; apply steps_directions; assumption).
    rewrite sum_swap. unfold inflow. apply sum_ext. intros d Hd. apply in_seq in Hd.
    exact (telescope_set rank cells d (steps_amount dx steps d true) Hnd Hrk ltac:(lia)).
  - destruct data as [|this [|next rest]]; try discriminate Hlen.
    cbn [well_formed] in Hwf. destruct Hwf as (Hnd & Hrk & Hrl & Hrp & HndC & HCV & Hwf').
    cbn [nested] in Hnest. destruct Hnest as [Hn Hnest'].
    apply plan_ok_subs in Hp as [Hst Hsub]. pose proof (volume_nonzero dx Hdx) as Hv.
    pose proof (refined_dx_nonzero f dx Hdx Hrp) as Hdx'.
    set (dx' := refined_dx f dx) in *. set (V := cells) in *. set (C := covered f) in *.
    set (W := filter (fun c => negb (mem c C)) V).
    (* subcycles *)
    assert (forall c, In c (refined f) -> exists c0, domain c0 /\ In c (children (ref_ratio f) c0)) as Hdom'.
    { intros x Hx. apply in_flat_map in Hx as (c & Hc & Hx). exists c. split; [apply Hdom, HCV, Hc|assumption]. }
    assert (forall subs, Forall (plan_ok rank) subs -> forall fd, length fd = S (length fines) ->
       let fd' := fold_left (fun fd sub => AdvanceLevel rank (Some (ref_ratio f)) fines (refined f) dx' sub fd) subs fd in
       length fd' = S (length fines) /\
       total fines (refined f) dx' (map scratch fd') =
         (total fines (refined f) dx' (map scratch fd) + sum (map (inflow rank fines (refined f) dx') subs))%R /\
       (forall d low c, head_register fd' d low c =
          (head_register fd d low c + sum (map (fun s => own_amount (Some (ref_ratio f)) dx' (steps_of s) d low c) subs))%R)) as Hfold.
    { clear - IH Hwf' Hnest' Hdom' Hdx'. induction 1 as [|sub subs Hsub Hsubs IHs]; intros fd Hl fd'.
      - unfold fd'. cbn [fold_left map]. split; [assumption|]. split; [cbn; lra|intros; cbn; lra].
      - unfold fd'. cbn [fold_left].
        destruct (IH (Some (ref_ratio f)) (refined f) dx' sub fd _ Hl Hwf' Hnest' Hdom' Hsub Hdx') as (A1 & A2 & A3).
        destruct (IHs (AdvanceLevel rank (Some (ref_ratio f)) fines (refined f) dx' sub fd)) as (B1 & B2 & B3); [congruence|].
        split; [assumption|]. split.
        + rewrite B2, A2, sum_cons. lra.
        + intros d low c. rewrite B3, A3, sum_cons. lra. }
    destruct (Hfold subs Hsub (ResetCoarseFineFluxes (next :: rest))) as (F1 & F2 & F3);
      [cbn [ResetCoarseFineFluxes length] in *; lia|].
    unfold data'. cbn [AdvanceLevel]. fold dx'.
    remember (fold_left (fun fd sub => AdvanceLevel rank (Some (ref_ratio f)) fines (refined f) dx' sub fd) subs
                        (ResetCoarseFineFluxes (next :: rest))) as finer2 eqn:Ef2.
    destruct finer2 as [|fine2 rest2]; [discriminate F1|].
    destruct (fold_left (AdvanceLevel_Split own V dx) steps (this, fine2 :: rest2)) as [this3 finer3] eqn:E.
    destruct (steps_fold _ _ _ _ _ _ _ _ E) as (H1 & H2 & fine3 & -> & H4 & H5).
    split; [cbn [length] in *; lia|]. split; [|exact H2].
    cbn [map total]. fold C. fold W. fold dx'. rewrite H4.
    change (scratch fine2 :: map scratch rest2) with (map scratch (fine2 :: rest2)). rewrite F2.
    cbn [ResetCoarseFineFluxes map scratch].
    (* the coarse level *)
    assert (NoDup W) as NW by (apply NoDup_filter; assumption).
    assert (forall c, In c W <-> In c V /\ ~ In c C) as HW.
    { intros c. unfold W. rewrite filter_In, negb_true_iff, mem_false. reflexivity. }
    cbn [scratch].
    assert (sum (map (CoarsenConservatively f (scratch fine2) (ApplyFluxCorrection rank dx f fine3 (scratch this3))) W) =
            sum (map (ApplyFluxCorrection rank dx f fine3 (scratch this3)) W)) as EC.
    { apply sum_ext. intros c Hc. unfold CoarsenConservatively. fold C. apply HW in Hc as [_ Hc].
      rewrite (proj2 (mem_false c C) Hc). reflexivity. }
    rewrite EC. rewrite correction_sum; [|assumption|intros c Hc; rewrite HW; fold C in Hc; tauto].
    fold C.
    rewrite (sum_ext (scratch this3) (fun c => scratch this c + sum (map (fun s => step_change dx s c) steps))%R W)
      by (intros c Hc; apply H1; apply HW in Hc; tauto).
    rewrite sum_plus, !Rmult_plus_distr_l. rewrite <- (sum_scal (fun c => sum (map (fun s => step_change dx s c) steps)) (volume dx) W).
    rewrite (sum_ext (fun c => volume dx * sum (map (fun s => step_change dx s c) steps))%R
       (fun c => sum (map (fun d => steps_amount dx steps d true c - steps_amount dx steps d false c)%R (seq 0 rank))) W)
      by (intros; apply steps_directions; assumption).
    rewrite sum_swap. rewrite <- (sum_scal (fun d => sum (map (correction (volume dx) d (coarse_fine fine3) W) C)) (volume dx) (seq 0 rank)).
    (* fine inflow *)
    assert (sum (map (inflow rank fines (refined f) dx') subs) =
       sum (map (fun d =>
         (sum (map (fun c => sum (map (fun sub => sum (map (amount fines dx' sub d true) (edge (ref_ratio f) d true c))) subs)) (without_left C C d)) -
          sum (map (fun c => sum (map (fun sub => sum (map (amount fines dx' sub d false) (edge (ref_ratio f) d false c))) subs)) (without_right C C d)))%R)
         (seq 0 rank))) as EI.
    { unfold inflow. rewrite sum_swap. apply sum_ext. intros d Hd. apply in_seq in Hd. rewrite sum_minus. f_equal.
      - transitivity (sum (map (fun sub => sum (map (fun c => sum (map (amount fines dx' sub d true) (edge (ref_ratio f) d true c))) (without_left C C d))) subs)); [|apply sum_swap].
        apply sum_ext. intros sub _. unfold refined. fold C. apply (refined_low rank); try assumption; [|lia].
        intros c Hc. apply Hrk, HCV, Hc.
      - transitivity (sum (map (fun sub => sum (map (fun c => sum (map (amount fines dx' sub d false) (edge (ref_ratio f) d false c))) (without_right C C d))) subs)); [|apply sum_swap].
        apply sum_ext. intros sub _. unfold refined. fold C. apply (refined_high rank); try assumption; [|lia].
        intros c Hc. apply Hrk, HCV, Hc. }
    rewrite EI.
    match goal with |- (?a + ?b + ?c + (?t + ?e) = ?a + ?t + ?i)%R => cut (b + c + e = i)%R; [lra|] end.
    unfold inflow. rewrite <- !sum_plus. apply sum_ext. intros d Hd. apply in_seq in Hd.
    assert (has_rank rank C) as RC by (intros c Hc; apply Hrk, HCV, Hc).
    set (Plo := fun c => sum (map (fun sub => sum (map (amount fines dx' sub d true) (edge (ref_ratio f) d true c))) subs)).
    set (Phi := fun c => sum (map (fun sub => sum (map (amount fines dx' sub d false) (edge (ref_ratio f) d false c))) subs)).
    pose proof (balance rank d V C (steps_amount dx steps d true) Plo Phi
       (coarse_fine fine3 d true) (coarse_fine fine3 d false) Hnd HndC Hrk HCV ltac:(lia)) as HB.
    cbv zeta in HB. fold W in HB.
    assert (volume dx * sum (map (correction (volume dx) d (coarse_fine fine3) W) C) =
      sum (map (fun c => (if mem (right_of c d) W then coarse_fine fine3 d false c else 0) -
                         (if mem (left_of c d) W then coarse_fine fine3 d true c else 0)) C))%R as EV.
    { rewrite <- sum_scal. apply sum_ext. intros c _. unfold correction.
      destruct (mem (right_of c d) W), (mem (left_of c d) W); try lra; field; assumption. }
    rewrite EV.
    refine (eq_trans _ (eq_trans (HB _ _) _)); [reflexivity| | |].
    + (* low registers *)
      intros c Hc Hl. rewrite H5. pose proof (F3 d true c) as F3'. cbn [head_register ResetCoarseFineFluxes coarse_fine] in F3'.
      rewrite F3'. unfold Plo. rewrite Rplus_0_l. f_equal. apply sum_ext. intros sub _. cbn [own_amount].
      apply sum_ext. intros x Hx. symmetry. apply amount_uncovered. destruct fines as [|f' fines'']; [exact I|].
      apply mem_false. intros Hx'. destruct Hnest' as [Hn' _].
      unfold edge in Hx. apply filter_In in Hx as [Hx Hedge].
      pose proof (child_left rank (ref_ratio f) Hrl Hrp c x d (RC c Hc) ltac:(lia) Hx) as Hlx. rewrite Hedge in Hlx.
      destruct (Hn' x d Hx' ltac:(lia)) as [[Hin|Hout] _].
      * apply in_flat_map in Hin as (c' & Hc' & Hcx').
        assert (left_of c d = c') as Ec.
        { apply (parent_unique rank (ref_ratio f) Hrl Hrp _ _ (left_of x d)); [rewrite left_length; apply RC; assumption|apply RC; assumption|assumption|assumption]. }
        apply HW in Hl as [_ Hl]. apply Hl. rewrite Ec. exact Hc'.
      * apply Hout. exists (left_of c d). split; [|assumption]. apply Hdom. apply HW in Hl as [Hl _]. exact Hl.
    + intros c Hc Hl. rewrite H5. pose proof (F3 d false c) as F3'. cbn [head_register ResetCoarseFineFluxes coarse_fine] in F3'.
      rewrite F3'. unfold Phi. rewrite Rplus_0_l. rewrite amount_high_low. f_equal. apply sum_ext. intros sub _. cbn [own_amount].
      apply sum_ext. intros x Hx. symmetry. apply amount_uncovered. destruct fines as [|f' fines'']; [exact I|].
      apply mem_false. intros Hx'. destruct Hnest' as [Hn' _].
      unfold edge in Hx. apply filter_In in Hx as [Hx Hedge].
      pose proof (child_right rank (ref_ratio f) Hrl Hrp c x d (RC c Hc) ltac:(lia) Hx) as Hlx. rewrite Hedge in Hlx.
      destruct (Hn' x d Hx' ltac:(lia)) as [_ [Hin|Hout]].
      * apply in_flat_map in Hin as (c' & Hc' & Hcx').
        assert (right_of c d = c') as Ec.
        { apply (parent_unique rank (ref_ratio f) Hrl Hrp _ _ (right_of x d)); [rewrite right_length; apply RC; assumption|apply RC; assumption|assumption|assumption]. }
        apply HW in Hl as [_ Hl]. apply Hl. rewrite Ec. exact Hc'.
      * apply Hout. exists (right_of c d). split; [|assumption]. apply Hdom. apply HW in Hl as [Hl _]. exact Hl.
    + reflexivity.
Qed.
