(** C32: the stable time step of a patch accounts for every stencil.  The claim is false for the code in
    both versions; what holds is stated by the [_partial] theorems, what fails by the [_refuted] ones. *)
From Coq Require Import List ZArith Reals Lia Lra Bool.
From Verif Require Import ArrayModel ArraySpec BoxProofs FluxModel StableDtModel StableDtSpec StableDtProofs.
Import ListNotations.
Local Open Scope Z_scope.

(** Sequential version: every stencil that is followed by one more cell of the patch is accounted for, and
    the result is the time step of some stencil of the patch (infinity if there is none).
    Missing: the last stencil of each line, see [C32_sequential_refuted]. *)
Theorem C32_sequential_partial : forall (S : Type) (stable : list S -> time_step) n box states dir size,
  box_of_rank n box -> (dir < n)%nat -> (1 <= size)%nat ->
  let dt := ComputeStableDt_seq S stable box states dir size in
  (forall c, length c = n -> stencil_in box dir (size + 1) c -> dt_le dt (stable (cells_of states dir size c))) /\
  (dt = Infinite \/ exists c, length c = n /\ stencil_in box dir size c /\ dt = stable (cells_of states dir size c)).
Proof.
  intros S stable n box states dir size Hb Hd Hs dt. split.
  - intros c Hc Hin. apply (seq_covers S stable n); auto.
    apply (stencil_in_spec n) in Hin; auto; [|lia]. replace (Z.of_nat (size + 1) - 1) with (Z.of_nat size) in Hin by lia. exact Hin.
  - destruct (seq_attained S stable n box states dir size Hb Hd) as [H | (c & Hin & H)]; [left; exact H|right].
    exists c. pose proof (proj1 (shrink_spec n box dir _ c Hb Hd) Hin) as (Hc & _). split; [exact Hc|]. split; [|exact H].
    intros k Hk. apply (stencil_in_spec n box dir (size + 1)); auto; try lia.
    replace (Z.of_nat (size + 1) - 1) with (Z.of_nat size) by lia. exact Hin.
Qed.
Print Assumptions C32_sequential_partial.

(** On every patch, for every stencil ending at the upper side there are a flux method and data for which the
    result is larger than the stable time step of that stencil. *)
Theorem C32_sequential_refuted : forall n box dir size c,
  box_of_rank n box -> (dir < n)%nat -> (1 <= size)%nat -> length c = n ->
  stencil_in box dir size c -> nth dir c 0 + Z.of_nat size = nth dir (upper box) 0 ->
  exists (S : Type) (stable : list S -> time_step) states,
    (forall l, exists x, stable l = Finite x /\ (x > 0)%R) /\
    ~ dt_le (ComputeStableDt_seq S stable box states dir size) (stable (cells_of states dir size c)).
Proof.
  intros n box dir size c Hb Hd Hs Hc Hin Hend.
  set (eqd := list_eq_dec (list_eq_dec Z.eq_dec)).
  set (stable := fun l => if eqd l (cells_of (fun i => i) dir size c) then Finite 1 else Finite 2).
  exists (list Z), stable, (fun i => i). split.
  - intros l. unfold stable. destruct (eqd l _); eexists; (split; [reflexivity | lra]).
  - assert (E : stable (cells_of (fun i => i) dir size c) = Finite 1) by (unfold stable; destruct (eqd _ _); congruence).
    match goal with |- ~ dt_le _ ?x => replace x with (Finite 1) by (symmetry; exact E) end. destruct (seq_attained (list Z) stable n box (fun i => i) dir size Hb Hd) as [H | (d & Hd1 & H)].
    + rewrite H. cbn. auto.
    + rewrite H. unfold stable. destruct (eqd _ _) as [Heq | _]; [|cbn; lra]. exfalso.
      assert (d = c).
      { unfold cells_of in Heq. destruct size as [|size]; [lia|]. cbn [seq map] in Heq. injection Heq as Heq _.
        change (Z.of_nat 0) with 0 in Heq. rewrite !shift_0 in Heq. exact Heq. }
      subst d. apply (shrink_spec n) in Hd1; auto. cbn [fst snd] in Hd1. lia.
Qed.
Print Assumptions C32_sequential_refuted.

(** Vectorised version, for every number of lanes and every number of initialised mask lanes, whatever the
    uninitialised mask lanes hold and whatever the lanes beyond the row evaluate to: in a row of [m]
    stencils the j-th one is accounted for if it is part of a full chunk or its lane is initialised.
    Missing: the stencils in the remainder whose lanes are not initialised, see [C32_vectorised_refuted]. *)
Theorem C32_vectorised_partial : forall (S : Type) (stable : list S -> time_step) chunk mask_rows garbage stale n box states dir size,
  (1 <= chunk)%nat -> box_of_rank n box -> (dir < n)%nat -> (1 <= size)%nat ->
  let dt := ComputeStableDt_simd S stable chunk mask_rows garbage stale box states dir size in
  forall c, length c = n -> stencil_in box dir size c ->
    let j := Z.to_nat (nth 0 c 0 - nth 0 (lower box) 0) in
    let m := Z.to_nat (nth 0 (upper box) 0 - (if Nat.eqb dir 0 then Z.of_nat size - 1 else 0) - nth 0 (lower box) 0) in
    (j < chunk * (m / chunk) \/ j mod chunk < mask_rows)%nat ->
    dt_le dt (stable (cells_of states dir size c)).
Proof.
  intros S stable chunk mask_rows garbage stale n box states dir size Hk Hb Hd Hs dt c Hc Hin j m Hcase.
  apply (stencil_in_spec n) in Hin; auto.
  set (b := Shrink box dir (0, Z.of_nat size - 1)) in *.
  assert (Hbr : box_of_rank n b).
  { destruct Hb. unfold b, box_of_rank. cbn. rewrite !ArrayProofs.set_nth_length. auto. }
  assert (L0 : nth 0 (lower b) 0 = nth 0 (lower box) 0).
  { unfold b. cbn [Shrink lower fst]. rewrite nth_set_nth. destruct (Nat.eqb_spec 0 dir) as [<- | Hne]; cbn [andb]; auto.
    destruct (Nat.ltb_spec 0 (length (lower box))); auto. unfold nthZ. lia. }
  assert (U0 : nth 0 (upper b) 0 = nth 0 (upper box) 0 - (if Nat.eqb dir 0 then Z.of_nat size - 1 else 0)).
  { unfold b. cbn [Shrink upper snd]. rewrite nth_set_nth, Nat.eqb_sym. destruct (Nat.eqb_spec dir 0) as [-> | Hne]; cbn [andb]; [|lia].
    destruct (Nat.ltb_spec 0 (length (upper box))); auto. destruct Hb. lia. }
  subst m. rewrite <- U0, <- L0 in Hcase. subst j. rewrite <- L0 in Hcase.
  assert (Hn : exists l ls u us k o, lower b = l :: ls /\ upper b = u :: us /\ c = k :: o /\ l <= k < u /\ In o (loop_indices ls us)).
  { destruct Hbr as [B1 B2]. destruct (lower b) as [|l ls] eqn:El; cbn in B1; [lia|].
    destruct (upper b) as [|u us] eqn:Eu; cbn in B2; [lia|]. unfold in_box in Hin. rewrite El, Eu in Hin.
    apply inside_cons in Hin as (k & o & -> & Hkk & Ho). exists l, ls, u, us, k, o. repeat (split; [auto; lia|]).
    apply loop_indices_in; [congruence | exact Ho]. }
  destruct Hn as (l & ls & u & us & k & o & El & Eu & -> & Hlk & Ho). rewrite El, Eu in Hcase. cbn [nth] in Hcase.
  set (row := map (fun k => k :: o) (zrange l u)).
  assert (Hrow : In row (stencil_rows box dir size)).
  { unfold stencil_rows. fold b. cbv zeta. rewrite El, Eu. apply in_map_iff. exists o. auto. }
  assert (Lr : length row = Z.to_nat (u - l)) by (unfold row, zrange; rewrite !map_length, seq_length; reflexivity).
  assert (Nr : nth (Z.to_nat (k - l)) row [] = k :: o).
  { unfold row. rewrite (nth_indep _ [] ((fun k => k :: o) 0)) by (rewrite Lr || (fold row; rewrite Lr); lia).
    rewrite (map_nth (fun k => k :: o)). f_equal. unfold zrange.
    rewrite (nth_indep _ 0 ((fun k0 => l + Z.of_nat k0) 0%nat)) by (rewrite map_length, seq_length; lia).
    rewrite (map_nth (fun k0 => l + Z.of_nat k0)), seq_nth by lia. lia. }
  rewrite <- Nr.
  apply (simd_covers S stable chunk mask_rows garbage stale n box states dir size Hk Hb ltac:(lia) row); [exact Hrow | |].
  - refine (eq_ind_r (fun x => (Z.to_nat (k - l) < x)%nat) _ Lr). lia.
  - refine (eq_ind_r (fun x => (Z.to_nat (k - l) < chunk * (x / chunk) \/ Z.to_nat (k - l) mod chunk < mask_rows)%nat) _ Lr). exact Hcase.
Qed.
Print Assumptions C32_vectorised_partial.

(** Hence the claim holds for every stencil once all lanes of the mask are initialised. *)
Theorem C32_vectorised_initialised : forall (S : Type) (stable : list S -> time_step) chunk mask_rows garbage stale n box states dir size,
  (1 <= chunk <= mask_rows)%nat -> box_of_rank n box -> (dir < n)%nat -> (1 <= size)%nat ->
  forall c, length c = n -> stencil_in box dir size c ->
    dt_le (ComputeStableDt_simd S stable chunk mask_rows garbage stale box states dir size)
          (stable (cells_of states dir size c)).
Proof.
  intros. apply C32_vectorised_partial with (n := n); auto; [lia|]. right.
  eapply Nat.lt_le_trans; [apply Nat.mod_upper_bound; lia | lia].
Qed.
Print Assumptions C32_vectorised_initialised.

(** With the mask of the code (8 lanes, 1 initialised) there is a row of two stencils of which the second
    one is not accounted for, if the uninitialised lanes happen to be large. *)
Theorem C32_vectorised_refuted :
  exists (S : Type) (stable : list S -> time_step) garbage stale box states c,
    box_of_rank 1 box /\ length c = 1%nat /\ stencil_in box 0 2 c /\
    (forall l, exists x, stable l = Finite x /\ (x > 0)%R) /\
    ~ dt_le (ComputeStableDt_simd S stable 8 code_mask_rows garbage stale box states 0 2)
            (stable (cells_of states 0 2 c)).
Proof.
  exists Z, (fun l => if Z.eq_dec (hd 0 l) 1 then Finite 1 else Finite 2), (fun _ _ => false), (fun _ _ => Infinite),
         (mkBox [0] [3]), (fun i => nth 0 i 0), [1].
  split; [split; reflexivity|]. split; [reflexivity|]. split; [|split].
  - intros k Hk. apply (in_box_spec 1); [split; reflexivity|]. split; [reflexivity|]. intros [|r] Hr; [|lia].
    unfold Shift, nthZ. cbn [set_nth nth lower upper]. lia.
  - intros l. destruct (Z.eq_dec _ _); eexists; (split; [reflexivity | lra]).
  - vm_compute. lra.
Qed.
Print Assumptions C32_vectorised_refuted.

(** A patch of ten cells, stencils of two cells, direction 0, two dimensional: the hypotheses hold for the
    stencil starting at (8, 1), which the sequential version leaves out. *)
Example C32_example :
  let box := mkBox [0; 0] [10; 3] in
  box_of_rank 2 box /\ stencil_in box 0 2 [8; 1] /\ nth 0 [8; 1] 0 + 2 = nth 0 (upper box) 0 /\
  stencil_in box 0 (2 + 1) [7; 1].
Proof.
  cbv zeta. split; [split; reflexivity|].
  split; [|split; [reflexivity|]]; intros k Hk; (apply (in_box_spec 2); [split; reflexivity|]; split; [reflexivity|];
    intros [|[|r]] Hr; unfold Shift, nthZ; cbn [set_nth nth lower upper]; lia).
Qed.
