(** Proofs for C158. *)
From Coq Require Import ZArith List Arith Bool Lia FunctionalExtensionality.
From Verif Require Import RangeModel RangeSpec.
Import ListNotations.
Local Open Scope Z_scope.

Lemma contains_spec dim b i : containsb dim b i = true <-> inside dim b i.
Proof.
  unfold inside. induction dim as [|n IH]; cbn [containsb]; [split; [intros _ d H; lia|reflexivity]|]. rewrite !andb_true_iff, !Z.leb_le, IH. split.
  - intros [[A B] C] d H. destruct (Nat.eq_dec d n) as [-> |N]; [lia|apply C; lia].
  - intros H. split; [apply H; lia|intros d K; apply H; lia].
Qed.
Lemma cell_bounds v f w dir d : fst (GetCellsAndFacesInStencilRange v f w dir) d =
  if (d =? dir)%nat then (Z.max (fst (v d)) (fst (f d) - w), Z.min (snd (v d)) (snd (f d) - 1 + w)) else (Z.max (fst (v d)) (fst (f d)), Z.min (snd (v d)) (snd (f d))).
Proof. unfold GetCellsAndFacesInStencilRange, inter, grow, enclosedCells. cbn [fst]. destruct (d =? dir)%nat; reflexivity. Qed.
Lemma face_bounds v f w dir d : 0 <= w -> snd (GetCellsAndFacesInStencilRange v f w dir) d =
  if (d =? dir)%nat then (Z.max (fst (f d)) (fst (v d) + w), Z.min (snd (f d)) (snd (v d) - w + 1)) else (Z.max (fst (v d)) (fst (f d)), Z.min (snd (v d)) (snd (f d))).
Proof. intros Hw. unfold GetCellsAndFacesInStencilRange, inter, grow, enclosedCells, surroundingNodes. cbn [fst snd]. destruct (d =? dir)%nat; cbn [fst snd]; f_equal; lia. Qed.
Lemma face_iff dim v f w dir i : (dir < dim)%nat -> 1 <= w ->
  (inside dim (snd (GetCellsAndFacesInStencilRange v f w dir)) i <-> inside dim f i /\ stencil_inside dim v w dir i).
Proof.
  intros Hd Hw. unfold stencil_inside, inside, moved. split.
  - intros H. split.
    + intros d L. specialize (H d L). rewrite face_bounds in H by lia. destruct (d =? dir)%nat; cbn [fst snd] in H; lia.
    + intros k K d L. specialize (H d L). rewrite face_bounds in H by lia. destruct (d =? dir)%nat; cbn [fst snd] in H; lia.
  - intros [H1 H2] d L. rewrite face_bounds by lia. specialize (H1 d L). pose proof (H2 (- w) ltac:(lia) d L) as A. pose proof (H2 (w - 1) ltac:(lia) d L) as B.
    destruct (d =? dir)%nat; cbn [fst snd]; lia.
Qed.
Lemma stencil_cells dim v f w dir i : (dir < dim)%nat -> 1 <= w -> inside dim (snd (GetCellsAndFacesInStencilRange v f w dir)) i ->
  stencil_inside dim (fst (GetCellsAndFacesInStencilRange v f w dir)) w dir i.
Proof.
  intros Hd Hw H k K d L. specialize (H d L). rewrite face_bounds in H by lia. rewrite cell_bounds. unfold moved. destruct (d =? dir)%nat; cbn [fst snd] in *; lia.
Qed.
Lemma offsets v f w dir : 0 <= w -> fst (snd (GetCellsAndFacesInStencilRange v f w dir) dir) = fst (fst (GetCellsAndFacesInStencilRange v f w dir) dir) + w /\
  snd (snd (GetCellsAndFacesInStencilRange v f w dir) dir) = snd (fst (GetCellsAndFacesInStencilRange v f w dir) dir) - w + 1.
Proof. intros Hw. rewrite face_bounds, cell_bounds, Nat.eqb_refl by lia. cbn [fst snd]. lia. Qed.

Definition stencil {A} (cells : (nat -> Z) -> A) (w dir : nat) (i : nat -> Z) : list A := map (fun k => cells (moved i dir (Z.of_nat k - Z.of_nat w))) (seq 0 (2 * w)).
Lemma fluxes_spec {A F} dim (flux : list A -> F) v w dir cells i : (dir < dim)%nat -> (1 <= w)%nat -> forall tiles fluxes,
  (stencil_inside dim v (Z.of_nat w) dir i /\ (exists t, In t tiles /\ inside dim t i) -> ComputeNumericFluxes dim flux v tiles w dir cells fluxes i = flux (stencil cells w dir i)) /\
  (~ (stencil_inside dim v (Z.of_nat w) dir i /\ (exists t, In t tiles /\ inside dim t i)) -> ComputeNumericFluxes dim flux v tiles w dir cells fluxes i = fluxes i).
Proof.
  intros Hd Hw tiles. unfold ComputeNumericFluxes.
  set (step := fun (fl : (nat -> Z) -> F) (tile : box) => _).
  assert (ST : forall fl t, step fl t i = if containsb dim (snd (GetCellsAndFacesInStencilRange v t (Z.of_nat w) dir)) i then flux (stencil cells w dir i) else fl i).
  { intros fl t. unfold step. pose proof (offsets v t (Z.of_nat w) dir ltac:(lia)) as [O _]. destruct (GetCellsAndFacesInStencilRange v t (Z.of_nat w) dir) as [cb fb]. cbn [fst snd] in *.
    destruct (containsb dim fb i); [|reflexivity]. f_equal. unfold stencil. apply map_ext. intros k. f_equal. extensionality d. unfold moved. destruct (Nat.eqb_spec d dir) as [-> |]; [lia|reflexivity]. }
  clearbody step.
  induction tiles as [|t tiles IH]; intros fluxes; cbn [fold_left].
  - split; [intros [_ (t & [] & _)]|reflexivity].
  - specialize (IH (step fluxes t)). destruct IH as [IH1 IH2].
    destruct (containsb dim (snd (GetCellsAndFacesInStencilRange v t (Z.of_nat w) dir)) i) eqn:C.
    + assert (P := C). apply contains_spec in P. apply face_iff in P; [|exact Hd|lia]. destruct P as [P1 P2]. split; [intros _|intros N; exfalso; apply N; split; [exact P2|exists t; split; [now left|exact P1]]].
      destruct (existsb (fun t => containsb dim t i) tiles) eqn:E.
      * apply IH1. split; [exact P2|]. apply existsb_exists in E. destruct E as (t' & I & K). exists t'. split; [exact I|now apply contains_spec].
      * rewrite IH2; [now rewrite ST, C|]. intros [_ (t' & I & K)]. apply contains_spec in K. assert (existsb (fun t => containsb dim t i) tiles = true) by (apply existsb_exists; eauto). congruence.
    + split.
      * intros [S (t' & [<- |I] & K)]; [|apply IH1; eauto]. exfalso. assert (containsb dim (snd (GetCellsAndFacesInStencilRange v t (Z.of_nat w) dir)) i = true); [|congruence]. apply contains_spec, face_iff; [exact Hd|lia|auto].
      * intros N. rewrite IH2; [now rewrite ST, C|]. intros [S (t' & I & K)]. apply N. split; [exact S|]. exists t'. split; [now right|exact K].
Qed.
