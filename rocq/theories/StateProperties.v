(** Properties C55, C73 and C74: states, buffers, views and packs. *)
From Coq Require Import String.
From Coq Require Import List ZArith Lia Bool.
From Verif Require Import ArrayModel ArraySpec ArrayProofs BoxProofs StateModel StateSpec StateProofs StateProofs2 StateProofs3.
Import ListNotations.

(** ** C55 *)

(** CopyToBuffer puts the values of the state at the start of the buffer and leaves the rest; copying back
    into any state of the equation gives the state.  Both fail exactly when the buffer is too short. *)
Theorem C55_buffer : forall X ds (s t : state X) (buffer : list X),
  of_depths ds s -> of_depths ds t ->
  ((total ds <= length buffer)%nat ->
     CopyToBuffer buffer s = Some (values s ++ skipn (total ds) buffer) /\
     CopyFromBuffer t (values s ++ skipn (total ds) buffer) = Some s) /\
  ((length buffer < total ds)%nat -> CopyToBuffer buffer s = None /\ CopyFromBuffer t buffer = None).
Proof.
  intros X ds s t buffer Hs Ht. split; intros Hl.
  - split.
    + unfold CopyToBuffer.
      assert (length (firstn (total ds) buffer) = total ds) as L by (rewrite firstn_length; lia).
      pose proof (copy_to_some ds s Hs [] (firstn (total ds) buffer) (skipn (total ds) buffer) L) as E.
      cbn [app length] in E. rewrite firstn_skipn in E. rewrite E. reflexivity.
    + unfold CopyFromBuffer.
      destruct (copy_from_some (values s ++ skipn (total ds) buffer) ds t Ht 0) as (s' & E & D & V).
      { rewrite app_length, (values_length ds) by assumption. lia. }
      rewrite E. cbn [option_map fst]. f_equal. apply (of_depths_ext ds); [assumption|assumption|].
      rewrite V. cbn [skipn]. rewrite firstn_app, (values_length ds) by assumption. rewrite Nat.sub_diag, firstn_O, app_nil_r.
      rewrite <- (values_length ds s) by assumption. apply firstn_all.
  - unfold CopyToBuffer, CopyFromBuffer.
    rewrite (copy_to_none ds) by (assumption || lia). rewrite (copy_from_none _ ds) by (assumption || lia). split; reflexivity.
Qed.
Print Assumptions C55_buffer.

(** Conversely a state which was read from a buffer has its first values, and writing it back does not
    change the buffer. *)
Theorem C55_buffer_back : forall X ds (s t : state X) (buffer : list X),
  of_depths ds t -> CopyFromBuffer t buffer = Some s ->
  of_depths ds s /\ values s = firstn (total ds) buffer /\ CopyToBuffer buffer s = Some buffer.
Proof.
  intros X ds s t buffer Ht E. unfold CopyFromBuffer in E.
  destruct (Nat.le_gt_cases (total ds) (length buffer)) as [L|L].
  2:{ rewrite (copy_from_none _ ds) in E by (assumption || lia). discriminate. }
  destruct (copy_from_some buffer ds t Ht 0 L) as (s' & E' & D & V). rewrite E' in E. cbn [option_map fst] in E.
  injection E as <-. cbn [skipn] in V. split; [assumption|]. split; [assumption|].
  destruct (C55_buffer X ds s' s' buffer D D) as [H _]. destruct (H L) as [E1 _]. rewrite E1, V. f_equal. apply firstn_skipn.
Qed.
Print Assumptions C55_buffer_back.

Example C55_example :
  let ds := [ScalarDepth; VectorDepth 2; ScalarDepth] in
  let s := [VarScalar 1%Z; VarVector [2; 3]%Z; VarScalar 4%Z] in
  of_depths ds s /\ total ds = 4%nat /\
  CopyToBuffer [0; 0; 0; 0; 9]%Z s = Some [1; 2; 3; 4; 9]%Z /\
  CopyFromBuffer [VarScalar 0%Z; VarVector [0; 0]%Z; VarScalar 0%Z] [1; 2; 3; 4; 9]%Z = Some s /\
  CopyToBuffer [0; 0; 0]%Z s = None.
Proof. repeat split; repeat constructor. Qed.

Local Open Scope Z_scope.

(** Storing a state in a cell of a patch: component k of the state goes to component k of the cell, no other
    element of the memory changes (in particular no other cell and no other component), the elements
    belong to the patch, and loading the cell gives the state.  Storing or loading outside of the patch
    fails. *)
Theorem C55_patch : forall X ptr lo rest len ncomp ds (s : state X) (m : memory X) i,
  length lo = length len -> of_depths ds s -> length i = length len ->
  let view := patch_view ptr lo rest len ncomp ds in
  (in_box (patch_box lo len) i ->
     exists m', Store (length len) m view s i = Some m' /\
       (forall k, (k < total ds)%nat -> Some (m' (element ptr lo len i k)) = nth_error (values s) k) /\
       (forall a, (forall k, (k < total ds)%nat -> a <> element ptr lo len i k) -> m' a = m a) /\
       (forall j c, in_box (patch_box lo len) j -> j <> i \/ (total ds <= c)%nat ->
          m' (element ptr lo len j c) = m (element ptr lo len j c)) /\
       (forall t : state X, of_depths ds t -> Load (length len) m' t view i = Some s) /\
       (Z.of_nat (total ds) <= ncomp -> forall k, (k < total ds)%nat ->
          ptr <= element ptr lo len i k < ptr + product len * ncomp)) /\
  (~ in_box (patch_box lo len) i -> (0 < total ds)%nat ->
     Store (length len) m view s i = None /\ Load (length len) m s view i = None).
Proof.
  intros X ptr lo rest len ncomp ds s m i Hlo Hs Li view.
  apply stored_spec; try assumption.
  - apply patch_box_rank; congruence.
  - intros j Hj. exact Hj.
  - apply make_view_shows; congruence.
Qed.
Print Assumptions C55_patch.

(** The same for the view of a part of the patch: the box [b] with at least one cell and the variables with
    at least one component. *)
Theorem C55_part_of_patch : forall X ptr lo rest len ncomp ds (s : state X) (m : memory X) i b,
  length lo = length len -> of_depths ds s -> length i = length len ->
  proper (length len) b -> subbox b (patch_box lo len) -> ~ In (VectorDepth 0) ds ->
  let view := SubviewState (length len) (patch_view ptr lo rest len ncomp ds) b in
  (in_box b i ->
     exists m', Store (length len) m view s i = Some m' /\
       (forall k, (k < total ds)%nat -> Some (m' (element ptr lo len i k)) = nth_error (values s) k) /\
       (forall a, (forall k, (k < total ds)%nat -> a <> element ptr lo len i k) -> m' a = m a) /\
       (forall j c, in_box (patch_box lo len) j -> j <> i \/ (total ds <= c)%nat ->
          m' (element ptr lo len j c) = m (element ptr lo len j c)) /\
       (forall t : state X, of_depths ds t -> Load (length len) m' t view i = Some s) /\
       (Z.of_nat (total ds) <= ncomp -> forall k, (k < total ds)%nat ->
          ptr <= element ptr lo len i k < ptr + product len * ncomp)) /\
  (~ in_box b i -> (0 < total ds)%nat ->
     Store (length len) m view s i = None /\ Load (length len) m s view i = None).
Proof.
  intros X ptr lo rest len ncomp ds s m i b Hlo Hs Li [Hb Hne] Hsub Hd view.
  apply stored_spec; try assumption.
  apply (subview_shows (length len) _ (patch_box lo len) b ds Hb Hne).
  - apply make_view_shaped; congruence.
  - apply make_view_shows; congruence.
  - intros d H ->. contradiction.
Qed.
Print Assumptions C55_part_of_patch.

Example C55_patch_example :
  let ds := [ScalarDepth; VectorDepth 2] in
  let s := [VarScalar 1; VarVector [2; 3]] in
  let view := patch_view 100 [-1; 0] [] [3; 2] 3 ds in
  of_depths ds s /\ proper 2 (mkBox [0; 0] [2; 1]) /\ subbox (mkBox [0; 0] [2; 1]) (patch_box [-1; 0] [3; 2]) /\
  map (element 100 [-1; 0] [3; 2] [0; 1]) [0%nat; 1%nat; 2%nat] = [104; 110; 116] /\
  option_map (fun m => map m [103; 104; 105; 109; 110; 116; 117]) (Store 2 (fun _ => 7) view s [0; 1]) =
    Some [7; 1; 7; 7; 2; 3; 7] /\
  option_map (fun m => map m [103; 104; 105; 109; 110; 116; 117])
     (Store 2 (fun _ => 7) (SubviewState 2 view (mkBox [0; 0] [2; 2])) s [0; 1]) = Some [7; 1; 7; 7; 2; 3; 7].
Proof.
  split; [repeat constructor|]. split.
  { split; [split; reflexivity|]. intros [|[|r]] H; simpl; lia. }
  split; [|repeat split].
  intros i (L1 & L2 & H). split; [exact L1|]. split; [exact L1|]. intros r Hr. simpl in L1.
  specialize (H r Hr). destruct r as [|[|r]]; simpl in *; lia.
Qed.

(** If the patch has more than one layer of cells in a direction which the equation does not have, then the
    components of a vector valued variable are taken from the wrong cells: here storing in the cell 0 of
    the first layer changes component 1 of the cell 0 in the second layer (element 6) and not component 2
    of the stored cell (element 8). *)
Theorem C55_more_layers_refuted : exists ptr lo len ncomp ds (s : state Z) (m : memory Z) m',
  of_depths ds s /\ Z.of_nat (total ds) <= ncomp /\
  Store 1 m (MakeView 1 2 (MakePatchDataView ptr lo len ncomp) ds) s [0] = Some m' /\
  nth_error (values s) 2 = Some 3 /\
  m' (element ptr lo len [0; 0] 2) = m (element ptr lo len [0; 0] 2) /\ m (element ptr lo len [0; 0] 2) <> 3 /\
  m' (element ptr lo len [0; 1] 1) = 3 /\ m (element ptr lo len [0; 1] 1) <> 3.
Proof.
  exists 0, [0; 0], [2; 2], 3, [ScalarDepth; VectorDepth 2], [VarScalar 1; VarVector [2; 3]], (fun _ => 7).
  eexists. split; [repeat constructor|]. split; [discriminate|]. split; [reflexivity|].
  repeat split; discriminate.
Qed.
Print Assumptions C55_more_layers_refuted.

(** ** C73 *)

(** The number of components of a state is the number of its values; component number k is the k-th value
    (the one that is at position k of a buffer), and every other number fails; the index mapping numbers
    the components 0, 1, 2, ... in this order; there is one name per component, in this order, and names
    of different components are different when the names of the variables are. *)
Theorem C73_components : forall X ds (s : state X) names,
  of_depths ds s ->
  GetNumberOfComponents ds = length (values s) /\
  (forall k, GetComponent ds s k = if (0 <=? k) && (k <? Z.of_nat (length (values s))) then nth_error (values s) (Z.to_nat k) else None) /\
  of_depths ds (IndexMapping ds) /\ values (IndexMapping ds) = seq 0 (length (values s)) /\
  (length names = length ds ->
     VarNames names ds = component_names names ds /\ length (VarNames names ds) = length (values s) /\
     (NoDup names -> NoDup (VarNames names ds))).
Proof.
  intros X ds s names Hs. rewrite (values_length ds) by assumption.
  split; [apply number_of_components_total|]. split.
  { intros k. exact (component_fold ds s Hs k None). }
  destruct (index_mapping_fold ds [] 0) as (t & E & D & V).
  assert (IndexMapping ds = t) as -> by exact E.
  split; [assumption|]. split; [assumption|]. intros Hn. rewrite var_names_spec.
  split; [reflexivity|]. split; [apply component_names_length; assumption|]. apply component_names_nodup.
Qed.
Print Assumptions C73_components.

Example C73_example :
  let ds := [ScalarDepth; VectorDepth 2; VectorDepth 1] in
  let s := [VarScalar 10; VarVector [20; 30]; VarVector [40]] in
  of_depths ds s /\ GetNumberOfComponents ds = 4%nat /\
  map (GetComponent ds s) [-1; 0; 1; 2; 3; 4] = [None; Some 10; Some 20; Some 30; Some 40; None] /\
  IndexMapping ds = [VarScalar 0%nat; VarVector [1; 2]%nat; VarVector [3%nat]] /\
  VarNames ["Density"; "Momentum"; "Species"]%string ds =
    [Plain "Density"; Numbered "Momentum" 0; Numbered "Momentum" 1; Plain "Species"]%string.
Proof. repeat split; repeat constructor. Qed.

(** ** C74 *)

(** The pointers obtained from a view (of a patch or of a part of it) and moved by [n] elements load the state
    of the cell which is [n] cells behind the first one in the first direction. *)
Theorem C74_pointers : forall X ptr lo rest len ncomp ds (s : state X) (m : memory X) b n i,
  length lo = length len -> (0 < length len)%nat -> of_depths ds s ->
  proper (length len) b -> ~ In (VectorDepth 0) ds ->
  shifted (lower b) i 0 n -> in_box b i ->
  let view := SubviewState (length len) (patch_view ptr lo rest len ncomp ds) b in
  LoadPointer m s (Advance (Begin (length len) view) n) = Load (length len) m s view i /\
  LoadPointer m s (Advance (Begin (length len) view) n) <> None.
Proof.
  intros X ptr lo rest len ncomp ds s m b n i Hlo Hr Hs [Hb Hne] Hd Hi Hin view.
  assert (length (lower b) = length len) as L1 by apply Hb.
  assert (length i = length len) as L2 by (destruct Hi; congruence).
  assert (Begin (length len) view = cell_pointers (element ptr lo len) (product len) (lower b) 0 ds) as ->
    by (apply (subview_begin (length len) (length rest)); (assumption || congruence || reflexivity)).
  rewrite (advance_pointers ptr lo len (lower b) i n) by (assumption || lia).
  destruct (load_pointer_some (element ptr lo len) (product len) i
    (fun c k => element_component ptr lo len i c k) m ds s Hs 0) as (s1 & E1 & D1 & V1).
  assert (shows (length len) (element ptr lo len) b 0 ds view) as Hv.
  { apply (subview_shows (length len) _ (patch_box lo len) b ds Hb Hne).
    - apply make_view_shaped; congruence.
    - apply make_view_shows; congruence.
    - intros d H ->. contradiction. }
  destruct (load_some (length len) (element ptr lo len) b m ds s i Hb Hin L2 Hs 0 view Hv) as (s2 & E2 & D2 & V2).
  rewrite E1, E2. split; [|discriminate]. f_equal.
  apply (of_depths_ext ds); congruence.
Qed.
Print Assumptions C74_pointers.

(** A pack of [w] lanes: loading [n] cells through a pointer to the cell [i] puts the state of the j-th cell
    into lane j for j < n and leaves the other lanes alone; storing writes lane j to the j-th cell for
    j < n and changes no other element. *)
Theorem C74_packs : forall X (d : X) ptr lo rest len ncomp ds (s : pack_state X) (m : memory X) w n i ps k b,
  length lo = length len -> (0 < length len)%nat -> of_depths ds s -> width w s -> (n <= w)%nat ->
  proper (length len) b -> subbox b (patch_box lo len) -> ~ In (VectorDepth 0) ds ->
  shifted (lower b) i 0 k ->
  let view := SubviewState (length len) (patch_view ptr lo rest len ncomp ds) b in
  ps = Advance (Begin (length len) view) k ->
  (forall j c, (j < n)%nat -> shifted i c 0 (Z.of_nat j) -> in_box b c) ->
  (exists s', LoadN m s ps n = Some s' /\ of_depths ds s' /\ width w s' /\
     (forall j c (t : state X), (j < n)%nat -> shifted i c 0 (Z.of_nat j) -> of_depths ds t ->
        Load (length len) m t view c = Some (lane d j s')) /\
     (forall j, (n <= j)%nat -> lane d j s' = lane d j s)) /\
  (exists m', StoreN m ps s n = Some m' /\
     (forall j c (t : state X), (j < n)%nat -> shifted i c 0 (Z.of_nat j) -> of_depths ds t ->
        Load (length len) m' t view c = Some (lane d j s)) /\
     (forall a, (forall j c q, (j < n)%nat -> shifted i c 0 (Z.of_nat j) -> (q < total ds)%nat -> a <> element ptr lo len c q) ->
        m' a = m a)).
Proof.
  intros X d ptr lo rest len ncomp ds s m w n i ps k b Hlo Hr Hs Hw Hn [Hb Hne] Hsub Hd Hi view Hps Hcells.
  assert (length (lower b) = length len) as L1 by apply Hb.
  assert (length i = length len) as L2 by (destruct Hi; congruence).
  assert (shows (length len) (element ptr lo len) b 0 ds view) as Hv.
  { apply (subview_shows (length len) _ (patch_box lo len) b ds Hb Hne).
    - apply make_view_shaped; congruence.
    - apply make_view_shows; congruence.
    - intros e H ->. contradiction. }
  assert (ps = cell_pointers (element ptr lo len) (product len) i 0 ds) as Eps.
  { rewrite Hps.
    assert (Begin (length len) view = cell_pointers (element ptr lo len) (product len) (lower b) 0 ds) as ->
      by (apply (subview_begin (length len) (length rest)); (assumption || congruence || reflexivity)).
    apply advance_pointers; (assumption || lia). }
  clearbody view. rewrite Eps. clear Hps Eps.
  exact (pack_spec X d ptr lo len ds s m w n i b view Hlo Hr L2 Hs Hw Hn Hb Hsub Hv Hcells).
Qed.
Print Assumptions C74_packs.

Example C74_example :
  let ds := [ScalarDepth; VectorDepth 2] in
  let view := patch_view 100 [-1; 0] [] [4; 2] 3 ds in
  let b := mkBox [0; 1] [3; 2] in
  let s := [VarScalar [1; 2; 0]; VarVector [[3; 4; 0]; [5; 6; 0]]] in
  proper 2 b /\ subbox b (patch_box [-1; 0] [4; 2]) /\ of_depths ds s /\ width 3 s /\ shifted (lower b) [1; 1] 0 1 /\
  Advance (Begin 2 (SubviewState 2 view b)) 1 = [PtrScalar 106; PtrVector 114 8] /\
  LoadN (fun a => a) s [PtrScalar 106; PtrVector 114 8] 2 =
    Some [VarScalar [106; 107; 0]; VarVector [[114; 115; 0]; [122; 123; 0]]] /\
  option_map (fun m => map m [105; 106; 107; 108; 114; 115; 122; 123]) (StoreN (fun _ => 7) [PtrScalar 106; PtrVector 114 8] s 2) =
    Some [7; 1; 2; 7; 3; 4; 5; 6].
Proof.
  split; [split; [split; reflexivity|]; intros [|[|r]] H; simpl; lia|].
  split.
  { intros i (L1 & L2 & H). split; [exact L1|]. split; [exact L1|]. intros r Hr. simpl in L1.
    specialize (H r Hr). destruct r as [|[|r]]; simpl in *; lia. }
  split; [repeat constructor|]. split; [repeat constructor|].
  split; [split; [reflexivity|]; split; [reflexivity|]; intros [|[|k]] Hk; [lia|reflexivity|reflexivity]|].
  repeat split.
Qed.
