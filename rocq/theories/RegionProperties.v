(** C153: boxes of cells for regions, and the coarse geometry. *)
From Coq Require Import List Reals ZArith Lra Lia.
From Verif Require Import RegionModel RegionSpec RegionProofs.
Import ListNotations.
Local Open Scope R_scope.

(** Every cell of the domain that contains a point of the region is in the box. *)
Theorem C153_covers : forall (g : list axis) (r : list (R * R)) (x : list R) (idx : list Z),
  length r = length g -> (forall d a, nth_error g d = Some a -> proper a) -> in_region r x -> in_box (domain g) idx -> cell_contains g idx x ->
  in_box (BoxWhichContains g r) idx.
Proof.
  intros g r x idx L HP [R1 R2] [D1 D2] (C1 & C2 & C3). split; [rewrite box_length by exact L; exact C1|].
  intros d l i El Ei. assert (Dd : (d < length g)%nat) by (apply nth_len in Ei; lia).
  destruct (nth_some g d Dd) as (a & Ea). destruct (nth_some r d ltac:(lia)) as (q & Eq). destruct (nth_some x d ltac:(lia)) as (y & Ey).
  rewrite (box_nth g r d a q Ea Eq) in El. injection El as <-. pose proof (R2 d q y Eq Ey) as Hy.
  apply (axis_covers a (fst q) (snd q) y i (HP d a Ea)); [lra|exact Hy| |exact (C3 d a i y Ea Ei Ey)].
  apply (D2 d (a_small a, a_big a) i); [|exact Ei]. exact (map_nth_error (fun a => (a_small a, a_big a)) d g Ea).
Qed.
Print Assumptions C153_covers.

(** The box is not empty and in the domain. Cells strictly inside have their middle in the region, so that at most one layer
    of cells is added; an end of the box before the end of the domain is a cell with its middle outside of the region. *)
Theorem C153_tight : forall (g : list axis) (r : list (R * R)) (d : nat) (a : axis) (l : R * R),
  length r = length g -> nth_error g d = Some a -> nth_error r d = Some l -> proper a -> fst l <= snd l ->
  exists lo up, nth_error (BoxWhichContains g r) d = Some (lo, up) /\ (a_small a <= lo <= up)%Z /\ (up <= a_big a)%Z /\
    (forall i, (lo < i < up)%Z -> fst l <= middle a i <= snd l) /\
    ((a_small a < lo)%Z -> middle a lo < fst l) /\ ((up < a_big a)%Z -> snd l < middle a up).
Proof.
  intros g r d a l L Ea El Pa X. exists (fst (box_axis a (fst l) (snd l))), (snd (box_axis a (fst l) (snd l))).
  destruct (axis_bounds a (fst l) (snd l) Pa X) as (B1 & B2 & B3 & B4 & B5 & B6).
  split; [rewrite (box_nth g r d a l Ea El), <- surjective_pairing; reflexivity|]. repeat split; try assumption.
  - now apply B6.
  - now apply B6.
  - intros Q. apply B4. lia.
  - intros Q. apply B5. lia.
Qed.
Print Assumptions C153_tight.

(** The cells of the coarse geometry cover exactly the given coordinates, with the given number of cells of equal size. *)
Theorem C153_coarse : forall (ns : list Z) (cs : list (R * R)) (x : list R),
  length cs = length ns -> length x = length ns -> (forall d n, nth_error ns d = Some n -> (1 <= n)%Z) -> (forall d c, nth_error cs d = Some c -> fst c < snd c) ->
  let g := GetCoarseGeometry ns cs in
  domain g = map (fun n => (0%Z, (n - 1)%Z)) ns /\ (forall d a, nth_error g d = Some a -> proper a) /\
  (in_region cs x <-> exists idx, in_box (domain g) idx /\ cell_contains g idx x).
Proof.
  intros ns cs x L Lx Hn Hc g. assert (Lg : length g = length ns) by now apply coarse_length.
  assert (Get : forall d a, nth_error g d = Some a -> exists n c, nth_error ns d = Some n /\ nth_error cs d = Some c /\ a = coarse_axis n c).
  { intros d a E. pose proof (nth_len _ _ _ E). destruct (nth_some ns d ltac:(lia)) as (n & En). destruct (nth_some cs d ltac:(lia)) as (c & Ec).
    exists n, c. repeat split; try assumption. unfold g in E. rewrite (coarse_nth ns cs d n c En Ec) in E. congruence. }
  assert (Ends : forall n c, (1 <= n)%Z -> a_offset (coarse_axis n c) + a_dx (coarse_axis n c) * IZR (a_small (coarse_axis n c)) = fst c /\ a_offset (coarse_axis n c) + a_dx (coarse_axis n c) * (IZR (a_big (coarse_axis n c)) + 1) = snd c).
  { intros n c N. apply IZR_le in N. unfold coarse_axis. cbn [a_offset a_dx a_small a_big]. rewrite minus_IZR. split; field; lra. }
  assert (Pr : forall d a, nth_error g d = Some a -> proper a).
  { intros d a E. destruct (Get d a E) as (n & c & En & Ec & ->). specialize (Hn d n En). specialize (Hc d c Ec). split; [|cbn; lia].
    unfold coarse_axis. cbn [a_dx]. apply Rdiv_lt_0_compat; [lra|]. apply IZR_lt. lia. }
  split; [|split; [exact Pr|split]].
  - unfold g. clear -L. revert cs L. induction ns as [|n ns IH]; intros [|c cs] L; cbn in *; try lia; [reflexivity|]. f_equal. apply IH. lia.
  - intros [R1 R2]. destruct (choose_cells g x) as (idx & C & B); [lia|exact Pr| |exists idx; now split].
    intros d a y E Ey. destruct (Get d a E) as (n & c & En & Ec & ->). destruct (Ends n c (Hn d n En)) as [-> ->]. now apply (R2 d).
  - intros (idx & [B1 B2] & C1 & C2 & C3). split; [lia|]. intros d c y Ec Ey.
    assert (Dd : (d < length g)%nat) by (apply nth_len in Ey; lia). destruct (nth_some g d Dd) as (a & Ea). destruct (nth_some idx d ltac:(lia)) as (i & Ei).
    destruct (Get d a Ea) as (n & c' & En & Ec' & Ha). assert (c' = c) by congruence. subst c'.
    destruct (Ends n c (Hn d n En)) as [<- <-]. rewrite <- Ha. apply (cell_in_domain a i y); [apply (Pr d a Ea)| |exact (C3 d a i y Ea Ei Ey)].
    apply (B2 d (a_small a, a_big a) i); [|exact Ei]. exact (map_nth_error (fun a => (a_small a, a_big a)) d g Ea).
Qed.
Print Assumptions C153_coarse.

(** A domain around a center contains exactly the points no further than the radii. *)
Theorem C153_around : forall (c rx x : list R), length rx = length c -> length x = length c ->
  (in_region (DomainAroundCenter c rx) x <-> forall d a r y, nth_error c d = Some a -> nth_error rx d = Some r -> nth_error x d = Some y -> Rabs (y - a) <= r).
Proof.
  intros c rx x L Lx. unfold in_region. rewrite around_length by exact L. split.
  - intros [_ H] d a r y E1 E2 E3. specialize (H d _ y (around_nth c rx d a r E1 E2) E3). cbn in H. apply Rabs_le. lra.
  - intros H. split; [exact Lx|]. intros d l y El Ey. assert (Dd : (d < length c)%nat) by (apply nth_len in Ey; lia).
    destruct (nth_some c d Dd) as (a & Ea). destruct (nth_some rx d ltac:(lia)) as (r & Er). rewrite (around_nth c rx d a r Ea Er) in El. injection El as <-.
    specialize (H d a r y Ea Er Ey). cbn. unfold Rabs in H. destruct (Rcase_abs (y - a)); lra.
Qed.
Print Assumptions C153_around.

(** Four cells on [0, 4]; the region [1.6, 2.2] is in cells 1 and 2, the box ends with the cells 1 and 2. *)
Example C153_example : let g := GetCoarseGeometry [4%Z] [(0, 4)] in
  (forall d a, nth_error g d = Some a -> proper a) /\ BoxWhichContains g [(8 / 5, 11 / 5)] = [(1%Z, 2%Z)] /\
  in_region [(8 / 5, 11 / 5)] [2] /\ cell_contains g [2%Z] [2] /\ in_box (domain g) [2%Z].
Proof.
  cbv zeta. assert (Ax : GetCoarseGeometry [4%Z] [(0, 4)] = [coarse_axis 4 (0, 4)]) by reflexivity. rewrite Ax.
  assert (Dx : a_dx (coarse_axis 4 (0, 4)) = 1) by (unfold coarse_axis; cbn; field).
  split; [|split; [|split; [|split]]].
  - intros [|[|d]] a E; try discriminate. injection E as <-. split; [rewrite Dx; lra|cbn; lia].
  - cbn [BoxWhichContains]. f_equal. unfold box_axis. change (loop_range (a_small (coarse_axis 4 (0, 4))) (a_big (coarse_axis 4 (0, 4)))) with [0%Z; 1%Z; 2%Z]. cbn [fold_left].
    unfold box_step, CellCenter. rewrite Dx. cbn [a_small a_big a_offset coarse_axis fst snd].
    repeat (destruct (Rlt_dec _ _); try lra). reflexivity.
  - split; [reflexivity|]. intros [|[|d]] l y E1 E2; try discriminate. injection E1 as <-. injection E2 as <-. cbn. lra.
  - split; [reflexivity|split; [reflexivity|]]. intros [|[|d]] a i y E1 E2 E3; try discriminate. injection E1 as <-. injection E2 as <-. injection E3 as <-. unfold in_cell. rewrite Dx. cbn. lra.
  - split; [reflexivity|]. intros [|[|d]] l i E1 E2; try discriminate. injection E1 as <-. injection E2 as <-. cbn. lia.
Qed.
