(** C158: faces with fluxes. *)
From Coq Require Import ZArith List Arith Bool Lia.
From Verif Require Import RangeModel RangeSpec RangeProofs.
Import ListNotations.
Local Open Scope Z_scope.

(** For every box of valid cells, every tile of faces and every stencil width the faces chosen are exactly those of the tile whose whole stencil is valid;
    the cells chosen are valid and contain the stencil of each of these faces, and along the axis there are 2 w - 1 more cells than faces, w of them in front
    of the first face (so that the shifted views of a flux method have one cell for each face). *)
Theorem C158_faces : forall dim valid tile w dir, (dir < dim)%nat -> 1 <= w ->
  let cells := fst (GetCellsAndFacesInStencilRange valid tile w dir) in let faces := snd (GetCellsAndFacesInStencilRange valid tile w dir) in
  (forall i, inside dim faces i <-> inside dim tile i /\ stencil_inside dim valid w dir i) /\
  (forall i, inside dim cells i -> inside dim valid i) /\
  (forall i, inside dim faces i -> stencil_inside dim cells w dir i) /\
  fst (faces dir) = fst (cells dir) + w /\ snd (cells dir) - fst (cells dir) + 1 = (snd (faces dir) - fst (faces dir) + 1) + (2 * w - 1) /\
  (forall d, d <> dir -> faces d = cells d).
Proof.
  intros dim v t w dir Hd Hw cells faces. unfold cells, faces. split; [intros i; now apply face_iff|]. split.
  { intros i H d L. specialize (H d L). rewrite cell_bounds in H. destruct (d =? dir)%nat; cbn [fst snd] in H; lia. }
  split; [intros i; now apply stencil_cells|]. pose proof (offsets v t w dir ltac:(lia)) as [O1 O2]. split; [exact O1|]. split; [lia|].
  intros d N. rewrite face_bounds, cell_bounds by lia. apply Nat.eqb_neq in N. now rewrite N.
Qed.
Print Assumptions C158_faces.

(** For every flux function, all tiles and all data: the flux of a face which is in some tile and has a valid stencil is the function of its 2 w neighbours, from
    the lowest to the highest, all other faces are left alone; so the fluxes do not depend on how the faces are divided into tiles. *)
Theorem C158_tiles : forall (A F : Type) dim (flux : list A -> F) valid tiles (w dir : nat) (cells : (nat -> Z) -> A) (fluxes : (nat -> Z) -> F), (dir < dim)%nat -> (1 <= w)%nat ->
  (forall i, stencil_inside dim valid (Z.of_nat w) dir i -> (exists t, In t tiles /\ inside dim t i) ->
     ComputeNumericFluxes dim flux valid tiles w dir cells fluxes i = flux (map (fun k => cells (moved i dir (Z.of_nat k - Z.of_nat w))) (seq 0 (2 * w)))) /\
  (forall i, ~ (stencil_inside dim valid (Z.of_nat w) dir i /\ exists t, In t tiles /\ inside dim t i) -> ComputeNumericFluxes dim flux valid tiles w dir cells fluxes i = fluxes i) /\
  (forall tiles', (forall i, (exists t, In t tiles /\ inside dim t i) <-> (exists t, In t tiles' /\ inside dim t i)) ->
     forall i, ComputeNumericFluxes dim flux valid tiles w dir cells fluxes i = ComputeNumericFluxes dim flux valid tiles' w dir cells fluxes i).
Proof.
  intros A F dim flux v tiles w dir cells fluxes Hd Hw. split; [intros i H1 H2; now apply fluxes_spec|]. split; [intros i H; now apply fluxes_spec|].
  intros tiles' H i.
  destruct (fluxes_spec dim flux v w dir cells i Hd Hw tiles fluxes) as [S1 N1]. destruct (fluxes_spec dim flux v w dir cells i Hd Hw tiles' fluxes) as [S2 N2].
  assert (D : forall ts : list box, (exists t, In t ts /\ inside dim t i) \/ ~ (exists t, In t ts /\ inside dim t i)).
  { intros ts. destruct (existsb (fun t => containsb dim t i) ts) eqn:E.
    - left. apply existsb_exists in E. destruct E as (t & I & K). exists t. split; [exact I|now apply contains_spec].
    - right. intros (t & I & K). apply contains_spec in K. assert (existsb (fun t => containsb dim t i) ts = true) by (apply existsb_exists; eauto). congruence. }
  assert (DV : stencil_inside dim v (Z.of_nat w) dir i \/ ~ stencil_inside dim v (Z.of_nat w) dir i).
  { destruct (containsb dim (snd (GetCellsAndFacesInStencilRange v (fun d => (i d, i d)) (Z.of_nat w) dir)) i) eqn:E.
    - left. apply contains_spec, face_iff in E; [tauto|exact Hd|lia].
    - right. intros K. assert (containsb dim (snd (GetCellsAndFacesInStencilRange v (fun d => (i d, i d)) (Z.of_nat w) dir)) i = true); [|congruence]. apply contains_spec, face_iff; [exact Hd|lia|]. split; [intros d L; cbn; lia|exact K]. }
  destruct DV as [V|V]; [destruct (D tiles) as [T|T]|].
  - rewrite S1, S2; [reflexivity|split; [exact V|now apply H]|auto].
  - rewrite N1, N2; [reflexivity|intros [_ T']; apply T; now apply H|tauto].
  - rewrite N1, N2; tauto.
Qed.
Print Assumptions C158_tiles.

(** Cells -2 .. 5 of one axis (two ghost cells), the faces -1 .. 5 in two tiles; with width 2 the faces 0 .. 4 get fluxes. *)
Definition valid_ex : box := fun _ => (-2, 5).
Definition tiles_ex : list box := [(fun _ => (-1, 2)); (fun _ => (3, 5))].
Example C158_example :
  snd (GetCellsAndFacesInStencilRange valid_ex (fun _ => (-1, 2)) 2 0) 0%nat = (0, 2) /\ fst (GetCellsAndFacesInStencilRange valid_ex (fun _ => (-1, 2)) 2 0) 0%nat = (-2, 3) /\
  map (fun x => ComputeNumericFluxes 1 (fun l => l) valid_ex tiles_ex 2 0 (fun i => i 0%nat) (fun _ => []) (fun _ => x)) [-1; 0; 4; 5] = [[]; [-2; -1; 0; 1]; [2; 3; 4; 5]; []].
Proof. repeat split. Qed.
