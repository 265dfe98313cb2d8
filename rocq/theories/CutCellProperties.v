(** C39 (stabilised fluxes), C64 (fractions of faces), C65 (conservation and free stream of the cut cell update),
    C66 (stability of small cells), C67 (vectorised update). *)
From Coq Require Import Reals ZArith List Lra Lia Bool.
From Verif Require Import CutCellModel CutCellSpec CutCellProofs.
Import ListNotations.
Local Open Scope R_scope.

(** A wall which falls from height 3/4 at the face 0 to 1/4 at the face 1 and ends inside of cell 1; cell 2 is
    covered and all cells left of cell 0 are cut parallel to the direction. *)
Definition ramp_beta (j : Z) : R := if Z.leb j 0 then 3 / 4 else if Z.eqb j 1 then 1 / 4 else 0.
Definition ramp_volume (j : Z) : R :=
  if Z.ltb j 0 then 3 / 4 else if Z.eqb j 0 then 1 / 2 else if Z.eqb j 1 then 1 / 16 else 0.
Definition ramp_center (j : Z) : R := if Z.eqb j 1 then - (1 / 4) else 0.
Definition ramp (f : Z -> R) (b : Z -> R) (u : Z -> R) : line := mkLine ramp_beta f b ramp_center ramp_volume u.
Lemma ramp_geometry f b u : geometry (ramp f b u).
Proof.
  intros j. unfold ramp, ramp_beta, ramp_volume, ramp_center, cut_cell. cbn [beta volume center].
  destruct (Z.leb_spec j 0), (Z.leb_spec (j + 1) 0), (Z.eqb_spec j 1), (Z.eqb_spec (j + 1) 1), (Z.ltb_spec j 0), (Z.eqb_spec j 0);
    try lia; repeat split; intros; try lra; try lia.
Qed.

(** ** C39 *)

(** The stabilised flux lies between the smallest and the largest of the three fluxes it is made of. *)
Theorem C39_between : forall i lo hi,
  0 <= betaUS i -> 0 <= betaL i -> 0 <= betaR i -> betaUS i + betaL i + betaR i = 1 ->
  all_between lo hi [regular i; boundaryL i; boundaryR i] ->
  let o := stable_single i in all_between lo hi [stable o; shielded_left o; shielded_right o].
Proof.
  intros i lo hi U L R S H o. inversion H as [|? ? H1 T1]; subst. inversion T1 as [|? ? H2 T2]; subst. inversion T2 as [|? ? H3 _]; subst.
  destruct (stable_shielded i lo hi) as [A B]; auto. pose proof (stable_between i lo hi U L R S H1 H2 H3) as C.
  apply Forall_cons; [exact C|]. apply Forall_cons; [exact A|]. apply Forall_cons; [exact B|]. apply Forall_nil.
Qed.
Print Assumptions C39_between.

Example C39_between_example : let i := mkFI 2 4 (-1) (1 / 2) (1 / 4) (1 / 4) (1 / 4) (- (1 / 4)) in
  stable (stable_single i) = 29 / 16 /\ all_between (-1) 4 [stable (stable_single i)].
Proof.
  assert (E : stable (stable_single (mkFI 2 4 (-1) (1 / 2) (1 / 4) (1 / 4) (1 / 4) (- (1 / 4)))) = 29 / 16).
  { unfold stable_single. cbn [stable regular boundaryL boundaryR betaUS betaL betaR centerL centerR].
    rewrite !sclamp_id by lra. field. }
  split; [exact E|]. apply Forall_cons; [cbv zeta; rewrite E; lra | apply Forall_nil].
Qed.

(** A uniform flux is preserved exactly, whatever the centroids. *)
Theorem C39_uniform : forall i f, betaUS i + betaL i + betaR i = 1 -> regular i = f -> boundaryL i = f -> boundaryR i = f ->
  stable_single i = mkFO f f f.
Proof.
  intros i f S E1 E2 E3. unfold stable_single. rewrite E1, E2, E3.
  set (dL := sclamp (1 / 2 - centerL i) 0 1). set (dR := sclamp (1 / 2 + centerR i) 0 1).
  f_equal; try ring. replace (betaUS i) with (1 - betaL i - betaR i) by lra. ring.
Qed.
Print Assumptions C39_uniform.

Example C39_uniform_example : stable_single (mkFI 5 5 5 (1 / 4) (3 / 4) 0 (1 / 8) 7) = mkFO 5 5 5.
Proof. apply C39_uniform; cbn; lra. Qed.

(** The row is computed element by element, whatever the number of lanes: the vectorised and the scalar branch agree. *)
Theorem C39_branches : forall w l, (1 <= w)%nat -> ComputeStableFluxes_Row w l = Some (map stable_single l).
Proof. exact stable_row. Qed.
Print Assumptions C39_branches.

Example C39_branches_example : forall a b c,
  ComputeStableFluxes_Row 2 [a; b; c] = Some [stable_single a; stable_single b; stable_single c].
Proof. intros. apply (C39_branches 2); lia. Qed.

(** Weights are what the face fractions provide: the hypothesis of C39_between holds for every open face which one
    of its neighbours does not narrow. *)
Theorem C39_weights : forall g j, geometry g -> 0 < beta g j -> beta g j <= beta g (j - 1)%Z \/ beta g j <= beta g (j + 1)%Z ->
  let a := face_fractions g j in 0 <= us_rel a /\ 0 <= ssL_rel a /\ 0 <= ssR_rel a /\ us_rel a + ssL_rel a + ssR_rel a = 1.
Proof. intros g j G B H a. destruct (no_double g G j H B) as (S & A1 & A2 & A3). auto. Qed.
Print Assumptions C39_weights.

Example C39_weights_example : forall f b u, let a := face_fractions (ramp f b u) 0 in
  us_rel a + ssL_rel a + ssR_rel a = 1.
Proof. intros f b u. apply (C39_weights (ramp f b u) 0 (ramp_geometry f b u)); unfold ramp, ramp_beta; cbn; lra. Qed.

(** ** C64 *)

(** The four parts of a face are not negative and add up to the open fraction of the face, their relative values to
    one if the face is open; at most one of the two singly shielded parts is present. *)
Theorem C64_partition : forall l m r, 0 <= l -> 0 <= m -> 0 <= r ->
  let a := fractions_single (l, m, r) in
  0 <= us a /\ 0 <= ssL a /\ 0 <= ssR a /\ 0 <= ds a /\ us a + ssL a + ssR a + ds a = m /\
  (ssL a = 0 \/ ssR a = 0) /\
  (0 < m -> us_rel a + ssL_rel a + ssR_rel a + ds_rel a = 1).
Proof.
  intros l m r Hl Hm Hr a. destruct (fractions_partition l m r Hl Hm Hr) as (P1 & P2 & P3 & P4 & P5). fold a in P1, P2, P3, P4, P5.
  repeat split; auto.
  - unfold a, fractions_single. cbn [ssL ssR]. unfold Rmin. destruct (Rle_dec (Rmax 0 (m - l)) (Rmax 0 (m - r))); [left | right]; ring.
  - intros M. destruct (fractions_rel l m r M) as (R1 & R2 & R3 & R4). fold a in R1, R2, R3, R4.
    apply (Rmult_eq_reg_r m); [|lra]. lra.
Qed.
Print Assumptions C64_partition.

(** What is shielded from a side is what the next face on that side does not continue. *)
Theorem C64_shielded : forall l m r, 0 <= l -> 0 <= m -> 0 <= r ->
  let a := fractions_single (l, m, r) in
  ssL a + ds a = Rmax 0 (m - l) /\ ssR a + ds a = Rmax 0 (m - r) /\ us a = Rmin m (Rmin l r).
Proof.
  intros l m r Hl Hm Hr a. unfold a, fractions_single. cbn [us ssL ssR ds]. repeat split; minmax; lra.
Qed.
Print Assumptions C64_shielded.

(** The row functions compute this for every element, whatever the number of lanes. *)
Theorem C64_branches : forall w l, (1 <= w)%nat -> FillCutCellData_Row w l = Some (map fractions_single l).
Proof. exact fractions_row. Qed.
Print Assumptions C64_branches.

Example C64_example : let a := fractions_single (1 / 2, 3 / 4, 1 / 4) in
  us a = 1 / 4 /\ ssL a = 0 /\ ssR a = 1 / 4 /\ ds a = 1 / 4.
Proof.
  intros a. destruct (C64_shielded (1 / 2) (3 / 4) (1 / 4)) as (A & B & C); try lra. fold a in A, B, C.
  destruct (C64_partition (1 / 2) (3 / 4) (1 / 4)) as (P1 & P2 & P3 & P4 & P5 & _); try lra. fold a in P1, P2, P3, P4, P5.
  rewrite Rmax_right in A by lra. rewrite Rmax_right in B by lra. rewrite (Rmin_right (1 / 2)) in C by lra. rewrite Rmin_right in C by lra. lra.
Qed.

(** ** C65 *)

(** The content of any range of cells changes by what passes its two outer faces and by what passes the wall; what
    leaves a cell through a face enters the neighbour. *)
Theorem C65_conservation : forall g k lo n, geometry g ->
  content (volume g) (step g k) lo n =
  content (volume g) (value g) lo n + k * (through g lo - through g (lo + Z.of_nat n) - sum_from lo n (wall g)).
Proof. intros g k lo n G. apply conservation. exact G. Qed.
Print Assumptions C65_conservation.

(** [through] is the open fraction of the face times the stabilised flux. *)
Theorem C65_through : forall g j, geometry g -> through g j = beta g j * stable (face_fluxes g j).
Proof. intros g j G. symmetry. apply through_stable. exact G. Qed.
Print Assumptions C65_through.

(** [wall] is the boundary flux of the cell times the jump of the fractions, as far as the larger face is not
    shielded on the other side too. *)
Theorem C65_wall : forall g j, geometry g ->
  wall g j = (beta g j - beta g (j + 1)%Z) * fB g j
             - (if Rlt_dec (beta g (j + 1)%Z) (beta g j) then ds (face_fractions g j) * fB g j
                else - (ds (face_fractions g (j + 1)) * fB g j)).
Proof.
  intros g j G. unfold wall. destruct (Rlt_dec (beta g (j + 1)%Z) (beta g j)) as [L | L].
  - destruct (left_fractions g G j ltac:(lra)) as (_ & _ & _ & _ & E). rewrite <- E. ring.
  - destruct (right_fractions g G j ltac:(lra)) as (_ & E2 & _ & _ & E). destruct (Rlt_dec (beta g j) (beta g (j + 1)%Z)) as [L' | L'].
    + replace (beta g j - beta g (j + 1)%Z) with (- (ssL (face_fractions g (j + 1)) + ds (face_fractions g (j + 1)))) by lra. ring.
    + replace (beta g j - beta g (j + 1)%Z) with 0 by lra. replace (ds (face_fractions g (j + 1))) with 0 by lra. ring.
Qed.
Print Assumptions C65_wall.

(** Without flux through the wall and through the ends the content is constant. *)
Corollary C65_closed : forall g k lo n, geometry g -> (forall j, fB g j = 0) -> beta g lo = 0 -> beta g (lo + Z.of_nat n)%Z = 0 ->
  content (volume g) (step g k) lo n = content (volume g) (value g) lo n.
Proof.
  intros g k lo n G W E0 E1. rewrite C65_conservation, !C65_through, E0, E1 by exact G.
  assert (S : forall m l, sum_from l m (wall g) = 0).
  { induction m; intros l; cbn [sum_from]; [reflexivity|]. rewrite IHm. unfold wall. rewrite W.
    destruct (Rlt_dec (beta g (l + 1)%Z) (beta g l)), (Rlt_dec (beta g l) (beta g (l + 1)%Z)); ring. }
  rewrite S. ring.
Qed.
Print Assumptions C65_closed.

(** A uniform flux leaves every open cell as it is. *)
Theorem C65_free_stream : forall g k j f, geometry g -> volume g j <> 0 ->
  (forall i, flux g i = f) -> (forall i, fB g i = f) -> step g k j = value g j.
Proof.
  intros g k j f G V F W.
  pose proof (small_cell g G k j f f) as S. rewrite !F, !W in S.
  assert (A : Rabs (step g k j - value g j) <= 0) by (replace 0 with (Rabs k * (f - f)) by ring; apply S; auto; lra).
  pose proof (Rabs_pos (step g k j - value g j)) as P. destruct (Req_dec (step g k j - value g j) 0) as [E | E]; [lra|].
  pose proof (Rabs_pos_lt _ E). lra.
Qed.
Print Assumptions C65_free_stream.

Example C65_example : forall u k, step (ramp (fun _ => 3) (fun _ => 3) u) k 1 = u 1%Z /\
  content ramp_volume (step (ramp (fun j => IZR j) (fun _ => 0) u) k) 0 2
  = content ramp_volume u 0 2 + k * through (ramp (fun j => IZR j) (fun _ => 0) u) 0.
Proof.
  intros u k. split.
  - apply (C65_free_stream _ k 1 3 (ramp_geometry _ _ _)); auto. unfold ramp, ramp_volume. cbn. lra.
  - pose proof (C65_conservation _ k 0 2 (ramp_geometry (fun j => IZR j) (fun _ => 0) u)) as C.
    rewrite (C65_through _ (0 + Z.of_nat 2)) in C by apply ramp_geometry.
    cbn [ramp volume value] in C. rewrite C. cbn [sum_from]. unfold wall. cbn [ramp beta fB].
    change (0 + Z.of_nat 2)%Z with 2%Z. change (ramp_beta 2) with (if Z.leb 2 0 then 3 / 4 else if Z.eqb 2 1 then 1 / 4 else 0).
    cbn [Z.leb Z.eqb Z.compare Pos.compare Pos.compare_cont Pos.eqb].
    destruct (Rlt_dec (ramp_beta (0 + 1)) (ramp_beta 0)), (Rlt_dec (ramp_beta 0) (ramp_beta (0 + 1))),
      (Rlt_dec (ramp_beta (0 + 1 + 1)) (ramp_beta (0 + 1))), (Rlt_dec (ramp_beta (0 + 1)) (ramp_beta (0 + 1 + 1))); ring.
Qed.

(** ** C66 *)

(** However small an open cell is, one step changes it by at most dt/dx times the spread of the fluxes around it. *)
Theorem C66_small_cells : forall g k j lo hi, geometry g -> volume g j <> 0 ->
  all_between lo hi [flux g j; flux g (j + 1)%Z; fB g (j - 1)%Z; fB g j; fB g (j + 1)%Z] ->
  Rabs (step g k j - value g j) <= Rabs k * (hi - lo).
Proof.
  intros g k j lo hi G V H.
  inversion H as [|? ? H1 T1]; subst. inversion T1 as [|? ? H2 T2]; subst. inversion T2 as [|? ? H3 T3]; subst.
  inversion T3 as [|? ? H4 T4]; subst. inversion T4 as [|? ? H5 _]; subst. apply small_cell; auto.
Qed.
Print Assumptions C66_small_cells.

Example C66_example : forall u k, Rabs (step (ramp (fun _ => 4) (fun _ => 1) u) k 1 - u 1%Z) <= Rabs k * 3.
Proof.
  intros u k. replace 3 with (4 - 1) by lra. apply (C66_small_cells (ramp (fun _ => 4) (fun _ => 1) u) k 1).
  - apply ramp_geometry.
  - unfold ramp, ramp_volume. cbn. lra.
  - repeat (apply Forall_cons; [cbn; lra|]). apply Forall_nil.
Qed.

(** ** C67 *)

(** Rows without covered cells: every element is updated as by the scalar branch, whatever the number of lanes. *)
Theorem C67_branches_partial : forall w k l, (1 <= w)%nat -> (forall c, In c l -> 0 < c_alpha c) ->
  UpdateConservatively_Row w k l = Some (map (update_single k) l).
Proof. exact update_row. Qed.
Print Assumptions C67_branches_partial.

(** Missing are rows with covered cells, for which it is false: a covered cell which shares a pack with an open cell
    gets the regular update, while the scalar branch sets it to zero. *)
Theorem C67_covered_refuted : forall k c o, c_alpha c = 0 -> 0 < c_alpha o -> v_beta (c_L c) = v_beta (c_R c) ->
  UpdateConservatively_Row 2 k [c; o] = Some [c_prev c + k * (v_stab (c_L c) - v_stab (c_R c)); update_single k o] /\
  UpdateConservatively_Row 3 k [c; o] = Some [0; update_single k o].
Proof.
  intros k c o A B E. split.
  - unfold UpdateConservatively_Row, run_row. cbn [length row_loop Nat.leb skipn firstn app map]. f_equal. unfold update_pack.
    cbn [forallb]. destruct (Req_EM_T (c_alpha c) 0); [|contradiction]. destruct (Req_EM_T (c_alpha o) 0); [lra|].
    cbn [andb map]. rewrite app_nil_r. f_equal; [|f_equal].
    + destruct (Req_EM_T (c_alpha c) 0); [|contradiction]. destruct (Rlt_dec 0 1); [|lra]. rewrite E.
      destruct (Rlt_dec (v_beta (c_R c)) (v_beta (c_R c))); [lra|]. reflexivity.
    + apply update_lane. lra.
  - unfold UpdateConservatively_Row, run_row. cbn [length row_loop Nat.leb skipn firstn app map]. f_equal.
    unfold update_single at 1. destruct (Req_EM_T (c_alpha c) 0); [reflexivity | contradiction].
Qed.
Print Assumptions C67_covered_refuted.

Example C67_example : exists c o, c_alpha c = 0 /\ 0 < c_alpha o /\
  UpdateConservatively_Row 2 1 [c; o] <> UpdateConservatively_Row 3 1 [c; o].
Proof.
  set (f0 := mkFV 0 0 0 0 0 0 0 0). exists (mkC 5 f0 f0 0 0 0), (mkC 5 f0 f0 0 1 0). cbn [c_alpha]. repeat split; [lra|].
  destruct (C67_covered_refuted 1 (mkC 5 f0 f0 0 0 0) (mkC 5 f0 f0 0 1 0)) as [-> ->]; cbn; try lra.
  intros E. injection E as E. lra.
Qed.
