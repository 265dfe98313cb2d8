(** Properties C119 to C123: the coupling of tubes and plena. *)
From Coq Require Import List Reals ZArith Bool Arith Lia Lra Psatz Permutation.
From Verif Require Import MultiBlockModel MultiBlockSpec MultiBlockProofs MultiBlockProofs2 MultiBlockProofs3.
Import ListNotations.
Local Open Scope R_scope.

(** ** C119: resampling *)

(** [n] cells of size D from cells of size h: every new cell is the mean of what it covers; seen from the interface if side = 1. *)
Theorem C119_means : forall n D src h side, 0 < D -> 0 < h ->
  (h < D -> INR n * D < INR (length src) * h) -> (D < h -> INR n * D <= INR (length src) * h) -> (D = h -> n = length src) ->
  exists l, InterpolateStates n D src h side = Some l /\ length l = n /\
    forall m, (m < n)%nat ->
      (side = 1%nat -> nth_error l (n - 1 - m) = Some (mean h (rev src) (INR m * D) (INR (S m) * D))) /\
      (side <> 1%nat -> nth_error l m = Some (mean h src (INR m * D) (INR (S m) * D))).
Proof.
  intros n D src h side HD Hh H1 H2 H3. apply interpolate_exact; try assumption. unfold fits. destruct (Rtotal_order h D) as [L|[E|L]]; [left; auto|right; right; auto|right; left; auto].
Qed.
Print Assumptions C119_means.

(** Nothing is lost: the new cells together hold what lies below them; a uniform state stays uniform; no new extrema. *)
Theorem C119_total : forall h l D n, 0 < h -> 0 < D ->
  sum_to n (fun m => D * mean h l (INR m * D) (INR (S m) * D)) = content h 0 l 0 (INR n * D).
Proof. exact mean_total. Qed.
Print Assumptions C119_total.
Theorem C119_range : forall n D src h side l lo hi, 0 < D -> 0 < h ->
  (h < D -> INR n * D < INR (length src) * h) -> (D < h -> INR n * D <= INR (length src) * h) -> (D = h -> n = length src) ->
  InterpolateStates n D src h side = Some l -> (forall v, In v src -> lo <= v <= hi) -> forall v, In v l -> lo <= v <= hi.
Proof.
  intros n D src h side l lo hi HD Hh H1 H2 H3 E B v Hv. destruct (C119_means n D src h side HD Hh H1 H2 H3) as (l' & E' & L & V). assert (l' = l) by congruence. subst l'.
  apply In_nth_error in Hv. destruct Hv as [m Hm]. assert (Lm : (m < n)%nat) by (rewrite <- L; apply nth_error_Some; congruence).
  assert (C : INR n * D <= INR (length src) * h). { destruct (Rtotal_order h D) as [Q|[Q|Q]]; [specialize (H1 Q); lra|rewrite (H3 (eq_sym Q)), Q; lra|apply H2, Q]. }
  assert (G : forall k s, (k < n)%nat -> length s = length src -> (forall x, In x s -> lo <= x <= hi) -> lo <= mean h s (INR k * D) (INR (S k) * D) <= hi).
  { intros k s Hk Ls Bs. apply mean_bounds; try assumption; [pose proof (pos_INR k); nra|rewrite S_INR; nra|]. rewrite Ls. apply Rle_trans with (2 := C). apply Rmult_le_compat_r; [lra|apply le_INR; lia]. }
  destruct (Nat.eq_dec side 1) as [Es|Es].
  - destruct (V (n - 1 - m)%nat ltac:(lia)) as [V1 _]. specialize (V1 Es). replace (n - 1 - (n - 1 - m))%nat with m in V1 by lia. rewrite Hm in V1. injection V1 as ->. apply G; [lia|apply rev_length|]. intros x Hx. apply B, in_rev, Hx.
  - destruct (V m Lm) as [_ V0]. specialize (V0 Es). rewrite Hm in V0. injection V0 as ->. apply G; auto.
Qed.
Print Assumptions C119_range.

(** Not if the coarser new cells end where the old cells end: the last cell then reads one value beyond the end. *)
Theorem C119_bounds_refuted : forall n D src h side, 0 < h -> h < D -> (0 < n)%nat -> INR n * D = INR (length src) * h ->
  InterpolateStates n D src h side = None.
Proof.
  intros n D src h side Hh HD Hn E. unfold InterpolateStates. destruct (Rlt_dec h D) as [_|N]; [|lra]. destruct (Nat.eqb side 1).
  - rewrite greater_overrun; try assumption; [reflexivity|]. rewrite rev_length. lra.
  - apply greater_overrun; try assumption. lra.
Qed.
Print Assumptions C119_bounds_refuted.

Example C119_example :
  mean 1 [4; 10; 7] 0 (3 / 2) = 6 /\
  (exists l, InterpolateStates 1 (3 / 2) [4; 10; 7] 1 0 = Some l /\ nth_error l 0 = Some 6) /\
  InterpolateStates 1 2 [4; 10] 1 0 = None.
Proof.
  assert (M : mean 1 [4; 10; 7] 0 (3 / 2) = 6).
  { unfold mean. cbn [content]. unfold overlap, Rmax, Rmin. rewrite !S_INR. cbn [INR]. repeat (destruct (Rle_dec _ _)); lra. }
  split; [exact M|]. split.
  - destruct (C119_means 1 (3 / 2) [4; 10; 7] 1 0 ltac:(lra) ltac:(lra) ltac:(cbn; lra) ltac:(cbn; lra) ltac:(lra)) as (l & E & _ & V). exists l. split; [exact E|].
    destruct (V 0%nat ltac:(lia)) as [_ V0]. rewrite V0 by discriminate. f_equal. rewrite <- M. f_equal; cbn; lra.
  - apply C119_bounds_refuted; try lra; try lia. cbn. lra.
Qed.

(** ** C120: ghost cells *)

(** Ghost cell number m from the interface is the mean of the other block between the distances m dx and (m+1) dx from the
    interface; [n] is any number of cells of the other block which reaches that far. *)
Theorem C120_ghost_cells : forall (data : Z -> R) plo phi tlo thi gcw dx_from dx_to m n,
  0 < dx_from -> 0 < dx_to -> (m < gcw)%nat -> INR gcw * dx_to <= INR n * dx_from ->
  (dx_from < dx_to -> forall k, INR gcw * dx_to <> INR k * dx_from) ->
  ghost_value data (plo, phi) (tlo, thi) gcw dx_from dx_to 1 (tlo - 1 - Z.of_nat m) =
    Some (mean dx_from (map (fun k => data (phi - Z.of_nat k)%Z) (seq 0 n)) (INR m * dx_to) (INR (S m) * dx_to)) /\
  ghost_value data (plo, phi) (tlo, thi) gcw dx_from dx_to 0 (thi + 1 + Z.of_nat m) =
    Some (mean dx_from (map (fun k => data (plo + Z.of_nat k)%Z) (seq 0 n)) (INR m * dx_to) (INR (S m) * dx_to)).
Proof. intros. apply ghost_exact; assumption. Qed.
Print Assumptions C120_ghost_cells.

(** Cells of the same size: the ghost cell is a copy of the cell at the same distance. *)
Theorem C120_equal_cells : forall (data : Z -> R) plo phi tlo thi gcw dx m, 0 < dx -> (m < gcw)%nat ->
  ghost_value data (plo, phi) (tlo, thi) gcw dx dx 1 (tlo - 1 - Z.of_nat m) = Some (data (phi - Z.of_nat m)%Z) /\
  ghost_value data (plo, phi) (tlo, thi) gcw dx dx 0 (thi + 1 + Z.of_nat m) = Some (data (plo + Z.of_nat m)%Z).
Proof.
  intros data plo phi tlo thi gcw dx m Hd Hm. destruct (ghost_exact data plo phi tlo thi gcw dx dx m gcw Hd Hd Hm ltac:(lra) ltac:(intros ?; lra)) as [A B]. rewrite A, B.
  assert (G : forall f : nat -> R, mean dx (map f (seq 0 gcw)) (INR m * dx) (INR (S m) * dx) = f m).
  { intros f. pose proof (equal_exact dx (map f (seq 0 gcw)) m Hd ltac:(rewrite map_length, seq_length; exact Hm)) as E. rewrite nth_error_map, nth_error_seq in E. destruct (Nat.ltb_spec m gcw); [|lia]. cbn [option_map] in E. injection E as E. symmetry. exact E. }
  rewrite !G. split; reflexivity.
Qed.
Print Assumptions C120_equal_cells.

(** Not defined if the ghost cells are coarser than the cells of the other block by an integer ratio. *)
Theorem C120_ratio_refuted : forall (data : Z -> R) box_from box_to gcw dx r side j, (0 < gcw)%nat -> 0 < dx -> (1 < r)%nat ->
  ghost_value data box_from box_to gcw dx (INR r * dx) side j = None.
Proof.
  intros data box_from box_to gcw dx r side j Hg Hd Hr. assert (1 < INR r) by (apply (lt_INR 1 r) in Hr; cbn in Hr; exact Hr).
  apply (ghost_overrun data box_from box_to gcw dx (INR r * dx) side j (gcw * r)); try assumption; [nra|]. rewrite mult_INR. ring.
Qed.
Print Assumptions C120_ratio_refuted.

Example C120_example :
  ghost_value (fun i => IZR (2 * i)) (0%Z, 9%Z) (100%Z, 199%Z) 2 1 (1 / 2) 1 (98%Z) = Some 18 /\
  ghost_value (fun i => IZR (2 * i)) (0%Z, 9%Z) (100%Z, 199%Z) 1 1 (3 / 2) 1 (99%Z) = Some (52 / 3).
Proof.
  split.
  - pose proof (proj1 (C120_ghost_cells (fun i => IZR (2 * i)) 0 9 100 199 2 1 (1 / 2) 1 1 ltac:(lra) ltac:(lra) ltac:(lia) ltac:(cbn; lra) ltac:(lra))) as H. cbn in H. cbn. rewrite H. f_equal.
    unfold mean. cbn [content]. unfold overlap, Rmax, Rmin. rewrite ?S_INR. cbn [INR]. repeat (destruct (Rle_dec _ _)); try lra.
  - assert (N : 1 < 3 / 2 -> forall k, INR 1 * (3 / 2) <> INR k * 1).
    { intros _ k E. cbn [INR] in E. rewrite INR_IZR_INZ in E. assert (3 = 2 * Z.of_nat k)%Z; [|lia]. apply eq_IZR. rewrite mult_IZR. lra. }
    pose proof (proj1 (C120_ghost_cells (fun i => IZR (2 * i)) 0 9 100 199 1 1 (3 / 2) 0 2 ltac:(lra) ltac:(lra) ltac:(lia) ltac:(cbn; lra) N)) as H. cbn in H. cbn. rewrite H. f_equal.
    unfold mean. cbn [content]. unfold overlap, Rmax, Rmin. rewrite ?S_INR. cbn [INR]. repeat (destruct (Rle_dec _ _)); try lra.
Qed.

(** ** C121: averages over the cross section, states of one dimension *)

(** Open volume times average = sum over the cells of the plenum at that distance, on all ranks. *)
Theorem C121_average : forall v blocks i comp, let cs := concat (concat blocks) in
  0 < v -> (forall c, In c cs -> 0 <= alpha c <= 1) -> 0 < add_up (fun c => if Z.eqb (cell_x c) i then alpha c else 0) cs ->
  add_up (fun c => if Z.eqb (cell_x c) i then alpha c else 0) cs * AverageConservativeHierarchyStates v blocks i comp =
  add_up (fun c => (if Z.eqb (cell_x c) i then alpha c else 0) * q c comp) cs.
Proof. exact average_balance. Qed.
Print Assumptions C121_average.

(** The distribution of the cells over ranks and tiles does not matter. *)
Theorem C121_distribution : forall v blocks blocks' i comp, Permutation (concat (concat blocks)) (concat (concat blocks')) ->
  AverageConservativeHierarchyStates v blocks i comp = AverageConservativeHierarchyStates v blocks' i comp.
Proof. exact average_perm. Qed.
Print Assumptions C121_distribution.

Theorem C121_range : forall v blocks i comp lo hi, let cs := concat (concat blocks) in
  0 < v -> (forall c, In c cs -> 0 <= alpha c <= 1) -> 0 < add_up (fun c => if Z.eqb (cell_x c) i then alpha c else 0) cs ->
  (forall c, In c cs -> cell_x c = i -> 0 < alpha c -> lo <= q c comp <= hi) ->
  lo <= AverageConservativeHierarchyStates v blocks i comp <= hi.
Proof. exact average_bounds. Qed.
Print Assumptions C121_range.

(** Positive density and pressure in the open cells: also in the average and in the one-dimensional ghost cell. *)
Theorem C121_admissible : forall n v blocks i g, let cs := concat (concat blocks) in
  (1 <= n)%nat -> 0 < g -> 0 < v -> (forall c, In c cs -> 0 <= alpha c <= 1) -> 0 < add_up (fun c => if Z.eqb (cell_x c) i then alpha c else 0) cs ->
  (forall c, In c cs -> cell_x c = i -> 0 < alpha c -> admissible n (q c)) ->
  exists s, complete_ghost (ReduceStateDimension n) None (AverageConservativeHierarchyStates v blocks i) = Some s /\
    admissible n (AverageConservativeHierarchyStates v blocks i) /\ admissible 1 s /\ 0 < pressure 1 g s.
Proof.
  intros n v blocks i g cs Hn Hg Hv F P S. pose proof (average_admissible n v blocks i Hv F P S) as A. pose proof (reduce_admissible n _ Hn A) as B.
  exists (ReduceStateDimension n (AverageConservativeHierarchyStates v blocks i)). split; [|split; [exact A|split; [exact B|]]].
  - unfold complete_ghost, density. destruct (Rlt_dec _ _) as [_|N]; [reflexivity|]. destruct N. apply A.
  - destruct B as [B1 B2]. unfold pressure, energy, density. rewrite momentum_square. set (s := ReduceStateDimension n _) in *. clearbody s. apply Rdiv_lt_0_compat; [|exact Hg].
    apply Rmult_lt_reg_r with (2 * s 0%nat); [lra|]. replace ((s 2%nat - 1 / 2 * square_sum 1 s / s 0%nat) * (2 * s 0%nat)) with (2 * s 0%nat * s 2%nat - square_sum 1 s) by (field; lra). lra.
Qed.
Print Assumptions C121_admissible.

(** From one dimension to [n] and back is the identity and keeps the pressure; from [n] to one keeps density, momentum along the
    tube and energy: the kinetic energy of the transverse motion becomes pressure. *)
Theorem C121_dimensions : forall n g s, (1 <= n)%nat ->
  (forall k, ReduceStateDimension n (EmbedState n s) k = s k) /\ pressure n g (EmbedState n s) = pressure 1 g s /\
  (0 < g -> 0 < s 0%nat ->
     pressure 1 g (ReduceStateDimension n s) = pressure n g s + (square_sum n s - s 1%nat * s 1%nat) / (2 * s 0%nat * g) /\
     pressure n g s <= pressure 1 g (ReduceStateDimension n s) /\
     (pressure 1 g (ReduceStateDimension n s) = pressure n g s <-> forall d, (2 <= d <= n)%nat -> s d = 0)).
Proof.
  intros n g s Hn. split; [intros k; apply reduce_embed; exact Hn|]. split; [apply embed_pressure; exact Hn|]. intros Hg Hd. rewrite reduce_pressure by assumption.
  assert (I : 0 < / (2 * s 0%nat * g)) by (apply Rinv_0_lt_compat; apply Rmult_lt_0_compat; lra). pose proof (square_sum_1 n s Hn) as L. unfold Rdiv. split; [reflexivity|]. split; [nra|].
  rewrite <- (square_sum_transverse n s Hn). split; intros E.
  - assert ((square_sum n s - s 1%nat * s 1%nat) * / (2 * s 0%nat * g) = 0) as Z by lra. apply Rmult_integral in Z. destruct Z; lra.
  - rewrite E. ring.
Qed.
Print Assumptions C121_dimensions.

(** The cells with the normal of the connection: a mean of their states and of their neighbours. *)
Theorem C121_normal : forall v blocks comp lo hi, let cs := concat (concat blocks) in
  0 < v -> (forall c, In c cs -> selected c = true -> 0 < n_alpha c <= 1 /\ lo <= n_q c comp <= hi /\ lo <= neighbor_q c comp <= hi) ->
  (exists c, In c cs /\ selected c = true) -> lo <= AverageStates_normal v blocks comp <= hi.
Proof. exact normal_bounds. Qed.
Print Assumptions C121_normal.

(** The buffers have the shape of the direction of the connection, the sums are stored along x: right for connections along x,
    but for other directions the sums are stored outside of the buffer (unless the cell has x index 0). *)
Theorem C121_direction : forall n lo hi idx, in_box n lo hi idx -> in_box n (ReduceDimension lo 0) (ReduceDimension hi 0) (ld_index idx).
Proof. intros n lo hi idx H d Hd. specialize (H d Hd). unfold ReduceDimension, ld_index. destruct (Nat.eqb d 0); lia. Qed.
Print Assumptions C121_direction.
Theorem C121_direction_refuted : forall n lo hi idx dir, (0 < dir < n)%nat -> in_box n lo hi idx -> idx 0%nat <> 0%Z ->
  ~ in_box n (ReduceDimension lo dir) (ReduceDimension hi dir) (ld_index idx).
Proof.
  intros n lo hi idx dir Hd H N B. specialize (B 0%nat ltac:(lia)). unfold ReduceDimension, ld_index in B. destruct dir as [|dir]; [lia|]. cbn [Nat.eqb] in B. lia.
Qed.
Print Assumptions C121_direction_refuted.

Example C121_example :
  let s1 := fun k => match k with 0%nat => 1 | 1%nat => 1 | 2%nat => 2 | _ => 10 end in
  let s2 := fun k => match k with 0%nat => 3 | 1%nat => 0 | 2%nat => 0 | _ => 4 end in
  let blocks := [[[mkCell 5 (1/2) s1]; [mkCell 6 1 s2]]; [[mkCell 5 1 s2]]] in
  AverageConservativeHierarchyStates 1 blocks 5 0 = 7 / 3 /\ admissible 2 s1 /\ admissible 2 s2 /\
  pressure 1 (5/2) (ReduceStateDimension 2 s1) > pressure 2 (5/2) s1 /\
  ~ in_box 2 (ReduceDimension (fun _ => 0%Z) 1) (ReduceDimension (fun _ => 9%Z) 1) (ld_index (fun _ => 4%Z)).
Proof.
  cbv zeta. split; [|split; [|split; [|split]]].
  - cbn. destruct (Rlt_dec 0 (1 / 2)); [|lra]. destruct (Rlt_dec 0 1); [|lra]. field.
  - split; cbn; lra.
  - split; cbn; lra.
  - unfold pressure, energy, density. cbn. lra.
  - apply (C121_direction_refuted 2 (fun _ => 0%Z) (fun _ => 9%Z)); [lia|intros d _; lia|lia].
Qed.

(** ** C122: fluxes through a connection *)

(** All faces of the plenum with the type of their tile *)
Definition all_faces (tiles : list (list (fabtype * list pface))) : list (fabtype * pface) := faces tiles.
(** In uncut tiles all faces are open, in covered tiles all are closed. *)
Definition well_formed (tiles : list (list (fabtype * list pface))) : Prop :=
  forall t f, In (t, f) (all_faces tiles) -> 0 <= area f <= 1 /\ (t = regular -> area f = 1) /\ (t = covered -> area f = 0).
(** Open area, and flux through the open area, of the faces with index b *)
Definition open_area (tiles : list (list (fabtype * list pface))) (b : Z) : R :=
  add_up (fun p => if Z.eqb (face_x (snd p)) b then area (snd p) else 0) (all_faces tiles).
Definition through (tiles : list (list (fabtype * list pface))) (b : Z) (comp : nat) : R :=
  add_up (fun p => if Z.eqb (face_x (snd p)) b then area (snd p) * fx (snd p) comp else 0) (all_faces tiles).
(** Component of the plenum for a component of the tube: density, momentum along x, then energy, species *)
Definition plenum_component (n k : nat) : nat := match k with 0%nat => 0%nat | 1%nat => 1%nat | S (S k') => (S n + k')%nat end.

Lemma average_flux_exact box side tiles comp b : GetBoundary box side = b -> well_formed tiles -> 0 < open_area tiles b ->
  open_area tiles b * AverageFlux box side tiles comp = through tiles b comp.
Proof.
  intros Eb W P. unfold AverageFlux. rewrite Eb. rewrite !on_boundary_flat.
  assert (Wt : forall p, In p (faces tiles) -> weight (fst p) (snd p) = area (snd p)).
  { intros [t f] Hp. destruct (W t f Hp) as (_ & A & C). cbn [fst snd]. destruct t; cbn; [rewrite (A eq_refl); reflexivity|reflexivity|rewrite (C eq_refl); reflexivity]. }
  assert (E1 : add_up (fun p => if Z.eqb (face_x (snd p)) b then weight (fst p) (snd p) else 0) (faces tiles) = open_area tiles b).
  { apply add_up_ext. intros p Hp. rewrite (Wt p Hp). reflexivity. }
  assert (E2 : add_up (fun p => if Z.eqb (face_x (snd p)) b then weight (fst p) (snd p) * fx (snd p) comp else 0) (faces tiles) = through tiles b comp).
  { apply add_up_ext. intros p Hp. rewrite (Wt p Hp). reflexivity. }
  rewrite E1, E2. destruct (Rlt_dec 0 (open_area tiles b)) as [_|N]; [|lra]. field. lra.
Qed.

(** At the lower end of a plenum the tube gets, at its last face, what leaves the plenum. *)
Theorem C122_lower_side : forall n lo hi tlo thi tiles k, well_formed tiles -> 0 < open_area tiles lo ->
  tube_face (tlo, thi) 0 = (thi + 1)%Z /\
  open_area tiles lo * tube_flux n (AverageFlux (lo, hi) 0 tiles) k = through tiles lo (plenum_component n k).
Proof.
  intros n lo hi tlo thi tiles k W P. split; [reflexivity|]. rewrite <- (average_flux_exact (lo, hi) 0 tiles _ lo eq_refl W P). f_equal. destruct k as [|[|k]]; [reflexivity|reflexivity|].
  cbn [tube_flux plenum_component]. f_equal. lia.
Qed.
Print Assumptions C122_lower_side.

(** A uniform flux along the plenum is handed over at both ends. *)
Theorem C122_uniform : forall n lo hi side tiles flux k, well_formed tiles -> (forall t f comp, In (t, f) (all_faces tiles) -> fx f comp = flux comp) ->
  0 < open_area tiles (if Nat.eqb side 0 then lo else hi) -> tube_flux n (AverageFlux (lo, hi) side tiles) k = flux (plenum_component n k).
Proof.
  intros n lo hi side tiles flux k W U P. set (b := if Nat.eqb side 0 then lo else hi) in *.
  assert (G : forall comp, AverageFlux (lo, hi) side tiles comp = flux comp).
  { intros comp. pose proof (average_flux_exact (lo, hi) side tiles comp b eq_refl W P) as E. assert (T : through tiles b comp = flux comp * open_area tiles b).
    { unfold through, open_area. rewrite <- add_up_scale. apply add_up_ext. intros [t f] Hp. cbn [snd]. rewrite (U t f comp Hp). destruct (Z.eqb _ _); ring. }
    rewrite T in E. apply Rmult_eq_reg_l with (open_area tiles b); lra. }
  destruct k as [|[|k]]; cbn [tube_flux plenum_component]; rewrite G; try reflexivity. f_equal. lia.
Qed.
Print Assumptions C122_uniform.

(** At the upper end the connection is the face hi + 1, but the flux is taken from the face hi, one cell inside of the plenum. *)
Theorem C122_upper_side_refuted : forall n lo hi tiles k, well_formed tiles -> 0 < open_area tiles hi ->
  open_area tiles hi * tube_flux n (AverageFlux (lo, hi) 1 tiles) k = through tiles hi (plenum_component n k) /\
  exists tiles', well_formed tiles' /\ open_area tiles' (hi + 1) = 1 /\ open_area tiles' hi = 1 /\
    open_area tiles' (hi + 1) * tube_flux n (AverageFlux (lo, hi) 1 tiles') k <> through tiles' (hi + 1) (plenum_component n k).
Proof.
  intros n lo hi tiles k W P. assert (G : forall ts, well_formed ts -> 0 < open_area ts hi -> open_area ts hi * tube_flux n (AverageFlux (lo, hi) 1 ts) k = through ts hi (plenum_component n k)).
  { clear W P. intros ts W P. rewrite <- (average_flux_exact (lo, hi) 1 ts _ hi eq_refl W P). f_equal. destruct k as [|[|k]]; [reflexivity|reflexivity|]. cbn [tube_flux plenum_component]. f_equal. lia. }
  split; [apply G; assumption|]. set (ts := [[(regular, [mkFace hi 1 (fun _ => 0); mkFace (hi + 1) 1 (fun _ => 1)])]]).
  assert (A1 : open_area ts (hi + 1) = 1). { unfold open_area, ts. cbn. destruct (Z.eqb_spec hi (hi + 1)); [lia|]. rewrite Z.eqb_refl. ring. }
  assert (A0 : open_area ts hi = 1). { unfold open_area, ts. cbn. rewrite Z.eqb_refl. destruct (Z.eqb_spec (hi + 1) hi); [lia|]. ring. }
  assert (Wf : well_formed ts). { intros t f Hf. cbn in Hf. destruct Hf as [E|[E|[]]]; injection E as <- <-; cbn; repeat split; try lra; discriminate. }
  exists ts. split; [exact Wf|]. split; [exact A1|]. split; [exact A0|]. specialize (G ts Wf ltac:(lra)). rewrite A0, Rmult_1_l in G. rewrite A1, Rmult_1_l, G.
  unfold through, ts. cbn. rewrite !Z.eqb_refl. destruct (Z.eqb_spec hi (hi + 1)); [lia|]. destruct (Z.eqb_spec (hi + 1) hi); [lia|]. lra.
Qed.
Print Assumptions C122_upper_side_refuted.

(** A closed connection: all fluxes are zero, the flux of momentum too, whatever the pressure. *)
Theorem C122_closed : forall n lo hi side tiles k, well_formed tiles -> open_area tiles (if Nat.eqb side 0 then lo else hi) = 0 -> tube_flux n (AverageFlux (lo, hi) side tiles) k = 0.
Proof.
  intros n lo hi side tiles k W Z. assert (G : forall comp, AverageFlux (lo, hi) side tiles comp = 0).
  { intros comp. unfold AverageFlux. rewrite !on_boundary_flat. change (GetBoundary (lo, hi) side) with (if Nat.eqb side 0 then lo else hi). set (b := if Nat.eqb side 0 then lo else hi) in *.
    assert (E1 : add_up (fun p => if Z.eqb (face_x (snd p)) b then weight (fst p) (snd p) else 0) (faces tiles) = open_area tiles b).
    { apply add_up_ext. intros [t f] Hp. destruct (W t f Hp) as (_ & A & C). cbn [fst snd]. destruct t; cbn; [rewrite (A eq_refl); reflexivity|reflexivity|rewrite (C eq_refl); reflexivity]. }
    rewrite E1, Z. destruct (Rlt_dec 0 0); [lra|reflexivity]. }
  destruct k as [|[|k]]; cbn [tube_flux]; apply G.
Qed.
Print Assumptions C122_closed.

Example C122_example :
  let tiles := [[(singlevalued, [mkFace 0 (1/2) (fun k => INR k); mkFace 1 1 (fun _ => 0)])]; [(regular, [mkFace 0 1 (fun _ => 4)]); (covered, [mkFace 0 0 (fun _ => 9)])]] in
  well_formed tiles /\ open_area tiles 0 = 3 / 2 /\ tube_flux 2 (AverageFlux (0%Z, 3%Z) 0 tiles) 1 = 3 /\ tube_flux 2 (AverageFlux (0%Z, 3%Z) 0 tiles) 2 = 11 / 3.
Proof.
  cbv zeta. set (tiles := [[(singlevalued, _)]; _]). assert (W : well_formed tiles).
  { intros t f Hf. cbn in Hf. destruct Hf as [E|[E|[E|[E|[]]]]]; injection E as <- <-; cbn; repeat split; try lra; discriminate. }
  assert (A : open_area tiles 0 = 3 / 2) by (unfold open_area, tiles; cbn; lra).
  split; [exact W|]. split; [exact A|]. split.
  - destruct (C122_lower_side 2 0 3 0 9 tiles 1 W ltac:(lra)) as [_ H]. rewrite A in H. set (x := tube_flux _ _ _) in *. clearbody x. unfold through, tiles in H. cbn in H. lra.
  - destruct (C122_lower_side 2 0 3 0 9 tiles 2 W ltac:(lra)) as [_ H]. rewrite A in H. set (x := tube_flux _ _ _) in *. clearbody x. unfold through, tiles in H. cbn in H. lra.
Qed.

(** ** C123: every connection is renewed *)

(** First version: the ghost data of every connection, and only those, are renewed from its own blocks. *)
Theorem C123_first_version : forall conns k c, In (k, c) (renewed_first_version conns) <-> nth_error conns k = Some c.
Proof. exact renewed_first_version_in. Qed.
Print Assumptions C123_first_version.

(** Second version: the same for a block whose connections are the first of the list. *)
Theorem C123_second_version_partial : forall of A B id k c, (forall c, In c A -> of c = id) -> (forall c, In c B -> of c <> id) ->
  (In (k, c) (renewed of (A ++ B) id) <-> nth_error (A ++ B) k = Some c /\ of c = id).
Proof. intros. apply renewed_first; assumption. Qed.
Print Assumptions C123_second_version_partial.

(** A block which does not own the first connection never gets the ghost data of its first connection renewed. *)
Theorem C123_second_version_refuted : forall of conns id k first rest, conns = first :: rest -> of first <> id ->
  (exists c, nth_error conns k = Some c /\ of c = id) -> (forall j c, nth_error conns j = Some c -> of c = id -> (k <= j)%nat) ->
  forall c, ~ In (k, c) (renewed of conns id).
Proof.
  intros of conns id k first rest E N I M. apply (never_renewed of conns id k first rest E N); [apply conditions_spec; exact I|]. intros j Hj. apply conditions_spec in Hj. destruct Hj as (c & H1 & H2). exact (M j c H1 H2).
Qed.
Print Assumptions C123_second_version_refuted.

(** The step is the smallest one of the blocks which have the level; tubes count along x only. *)
Theorem C123_stable_dt : forall along_x tubes plena r, ComputeStableDt along_x tubes plena = Some r ->
  (along_x = true /\ In (Some r) tubes \/ In (Some r) plena) /\ (forall y, along_x = true /\ In (Some y) tubes \/ In (Some y) plena -> r <= y).
Proof. exact stable_dt_spec. Qed.
Print Assumptions C123_stable_dt.

(** A copy of a context has all blocks exactly if there are at least as many tubes as plena. *)
Theorem C123_copy_refuted : forall (T P : Type) (tubes : list T) (plena : list P),
  fst (copy_blocks tubes plena) = tubes /\ (snd (copy_blocks tubes plena) = plena <-> (length plena <= length tubes)%nat).
Proof.
  intros T P tubes plena. unfold copy_blocks. cbn [fst snd]. rewrite Nat.min_id, firstn_all. split; [reflexivity|]. split; intros H.
  - apply (f_equal (@length P)) in H. rewrite firstn_length in H. lia.
  - rewrite Nat.min_r by exact H. apply firstn_all.
Qed.
Print Assumptions C123_copy_refuted.

Example C123_example :
  renewed plenum [mkConn 0 0; mkConn 1 0; mkConn 2 0] 0 = [(0%nat, mkConn 0 0); (1%nat, mkConn 1 0); (2%nat, mkConn 2 0)] /\
  renewed tube [mkConn 0 0; mkConn 1 0; mkConn 2 0] 1 = [] /\
  renewed tube [mkConn 1 0; mkConn 0 0; mkConn 0 1] 0 = [(2%nat, mkConn 0 0)] /\
  ComputeStableDt true [Some 3; None] [Some 2] = Some (Rmin 3 2) /\
  snd (copy_blocks [0%nat] [1%nat; 2%nat]) = [1%nat].
Proof. repeat split. Qed.
