(** After a step the coarsest level alone has the same total. *)
From Coq Require Import List ZArith Reals Lia Lra Bool Permutation.
From Verif Require Import ArrayModel ArraySpec ArrayProofs BoxProofs UpdateProofs3 UpdateProofs4 RefluxModel RefluxSpec RefluxProofs RefluxProofs2 RefluxProofs3.
Import ListNotations.
Local Open Scope Z_scope.

Definition cells_per_cell (r : list Z) : R := fold_right (fun z acc => IZR z * acc)%R 1%R r.

Lemma flat_map_length_const {A B} (f : A -> list B) k l : (forall x, length (f x) = k) -> length (flat_map f l) = (length l * k)%nat.
Proof. intros H. induction l as [|x l IH]; [reflexivity|]. cbn [flat_map length]. rewrite app_length, IH, H. lia. Qed.

Lemma children_count r : forall c, length c = length r -> Forall (fun z => 0 < z) r -> INR (length (children r c)) = cells_per_cell r.
Proof.
  unfold children, map2. induction r as [|z r IH]; intros [|x c] Hl Hp; try discriminate; [reflexivity|].
  inversion Hp; subst. cbn [combine map fst snd loop_indices]. unfold index in *.
  rewrite (flat_map_length_const _ (Z.to_nat z)).
  - rewrite mult_INR, IH by (try assumption; cbn in Hl; lia). cbn [cells_per_cell fold_right].
    rewrite INR_IZR_INZ, Z2Nat.id by lia. unfold cells_per_cell. ring.
  - intros o. rewrite map_length. unfold zrange. rewrite map_length, seq_length. f_equal. lia.
Qed.

Lemma cells_per_cell_pos r : Forall (fun z => 0 < z) r -> (0 < cells_per_cell r)%R.
Proof.
  induction 1 as [|z r Hz Hr IH]; cbn [cells_per_cell fold_right]; [lra|]. apply Rmult_lt_0_compat; [apply IZR_lt; lia|exact IH].
Qed.

Lemma refined_volume r : forall dx, length dx = length r -> Forall (fun z => 0 < z) r ->
  (volume (map2 (fun h r => h / IZR r) dx r) * cells_per_cell r = volume dx)%R.
Proof.
  unfold volume, map2. induction r as [|z r IH]; intros [|h dx] Hl Hp; try discriminate; [cbn; lra|].
  inversion Hp; subst. cbn [combine map fst snd fold_right cells_per_cell].
  rewrite <- (IH dx) by (try assumption; cbn in Hl; lia). unfold cells_per_cell.
  assert (IZR z <> 0)%R by (apply not_0_IZR; lia). field. assumption.
Qed.

Lemma advance_length rank fines : forall own cells dx p data,
  length data = S (length fines) -> length (AdvanceLevel rank own fines cells dx p data) = length data.
Proof.
  induction fines as [|f fines IH]; intros own cells dx [subs steps] data Hl.
  - destruct data as [|this finer]; [reflexivity|]. cbn [AdvanceLevel].
    destruct (fold_left _ steps (this, [])). reflexivity.
  - destruct data as [|this [|next rest]]; try discriminate Hl. cbn [AdvanceLevel].
    assert (forall subs fd, length fd = S (length fines) ->
      length (fold_left (fun fd sub => AdvanceLevel rank (Some (ref_ratio f)) fines (refined f) (refined_dx f dx) sub fd) subs fd) = S (length fines)) as H.
    { clear - IH. induction subs as [|s subs IHs]; intros fd Hf; [assumption|]. cbn [fold_left]. apply IHs. rewrite IH; assumption. }
    specialize (H subs (ResetCoarseFineFluxes (next :: rest)) ltac:(cbn [ResetCoarseFineFluxes length] in *; lia)).
    destruct (fold_left _ subs _) as [|fine2 rest2]; [discriminate H|].
    destruct (fold_left (AdvanceLevel_Split own cells dx) steps (this, fine2 :: rest2)) as [this3 finer3] eqn:E.
    destruct (steps_fold _ _ _ _ _ _ _ _ E) as (_ & _ & fine3 & -> & _). cbn [length] in *. lia.
Qed.

Lemma refined_dx_length f dx rank : length dx = rank -> length (ref_ratio f) = rank -> length (refined_dx f dx) = rank.
Proof. intros H1 H2. unfold refined_dx, map2. rewrite map_length, combine_length. lia. Qed.

Lemma advance_averaged rank fines : forall own cells dx p data,
  length data = S (length fines) -> well_formed rank fines cells -> length dx = rank -> advances_all fines p ->
  exists this rest, AdvanceLevel rank own fines cells dx p data = this :: rest /\
    total fines cells dx (map scratch (this :: rest)) = (volume dx * sum (map (scratch this) cells))%R.
Proof.
  induction fines as [|f fines IH]; intros own cells dx [subs steps] data Hl Hwf Hdx Hall.
  - destruct data as [|this finer]; [discriminate Hl|]. cbn [AdvanceLevel].
    destruct (fold_left _ steps (this, [])) as [this1 ?]. exists this1, finer. split; reflexivity.
  - destruct data as [|this [|next rest]]; try discriminate Hl.
    cbn [well_formed] in Hwf. destruct Hwf as (Hnd & Hrk & Hrl & Hrp & HndC & HCV & Hwf').
    cbn [advances_all] in Hall. destruct Hall as [Hne Hall].
    set (dx' := refined_dx f dx) in *. set (V := cells) in *. set (C := covered f) in *.
    destruct (exists_last Hne) as (subs0 & last & ->).
    apply Forall_app in Hall as [Hall0 Hlast]. inversion Hlast as [|? ? Hlast' _]; subst x l.
    cbn [AdvanceLevel]. fold dx'. rewrite fold_left_app. cbn [fold_left].
    set (fd := fold_left (fun fd sub => AdvanceLevel rank (Some (ref_ratio f)) fines (refined f) dx' sub fd) subs0
                         (ResetCoarseFineFluxes (next :: rest))).
    assert (length fd = S (length fines)) as Lfd.
    { unfold fd. assert (length (ResetCoarseFineFluxes (next :: rest)) = S (length fines)) as L0
        by (cbn [ResetCoarseFineFluxes length] in *; lia).
      revert L0. generalize (ResetCoarseFineFluxes (next :: rest)). clear. induction subs0 as [|s subs0 IHs]; intros fd Hf; [assumption|].
      cbn [fold_left]. apply IHs. rewrite advance_length; assumption. }
    destruct (IH (Some (ref_ratio f)) (refined f) dx' last fd Lfd Hwf') as (fine2 & rest2 & E2 & T2);
      [apply refined_dx_length; assumption|assumption|].
    rewrite E2.
    destruct (fold_left (AdvanceLevel_Split own V dx) steps (this, fine2 :: rest2)) as [this3 finer3] eqn:E.
    destruct (steps_fold _ _ _ _ _ _ _ _ E) as (H1 & H2 & fine3 & -> & H4 & H5).
    eexists _, _. split; [reflexivity|]. cbn [map scratch total]. fold C. fold dx'. rewrite H4.
    change (scratch fine2 :: map scratch rest2) with (map scratch (fine2 :: rest2)). rewrite T2.
    rewrite (sum_split (fun c => mem c C) _ V). rewrite Rmult_plus_distr_l, Rplus_comm. f_equal.
    assert (Permutation (filter (fun c => mem c C) V) C) as P.
    { apply NoDup_Permutation; [apply NoDup_filter; assumption|assumption|]. intros c. rewrite filter_In, mem_spec. split; [tauto|].
      intros H. split; [apply HCV|]; assumption. }
    rewrite (sum_map_perm _ _ _ P). unfold refined. fold C. rewrite sum_flat_map, <- !sum_scal. apply sum_ext. intros c Hc.
    unfold CoarsenConservatively. fold C. rewrite (proj2 (mem_spec c C) Hc).
    assert (length c = length (ref_ratio f)) as Lc by (rewrite Hrl; apply Hrk, HCV, Hc).
    rewrite (children_count _ c Lc Hrp).
    rewrite <- (refined_volume (ref_ratio f) dx) by (try assumption; congruence).
    pose proof (cells_per_cell_pos _ Hrp). unfold dx', refined_dx. field. lra.
Qed.
