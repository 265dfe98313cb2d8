(** C154: walls on a part of the boundary with embedded boundaries. *)
From Coq Require Import ZArith List Bool Reals Lia Lra.
From Verif Require Import ArrayModel ArraySpec ArrayProofs BoxProofs StableDtProofs BoundaryModel BoundarySpec BoundaryProofs WallModel WallProofs.
Import ListNotations.
Open Scope Z_scope.

(** For every type of states, reflection, patch of the domain, ghost width and section next to the domain: the call succeeds,
    nothing outside of the patch with its ghost cells is read; a ghost cell in the section gets the reflection of its mirror
    image if both are not covered and the zero state otherwise; all cells of the domain and all others keep their values.
    A call for another direction does nothing. *)
Theorem C154_wall : forall (S : Type) (refl : S -> S) (zeros : S) (alpha : index -> R) (n : nat) (D P sec A : IndexBox) (dir : nat) (side g : Z) (d : index -> S),
  box_of_rank n D -> box_of_rank n P -> box_of_rank n sec -> box_of_rank n A -> (dir < n)%nat -> side = 0 \/ side = 1 -> 0 <= g ->
  (forall r, (r < n)%nat -> nth r (lower D) 0 <= nth r (lower P) 0 < nth r (upper P) 0 /\ nth r (upper P) 0 <= nth r (upper D) 0) ->
  subbox (grow_box P g) A ->
  (if side =? 0 then nth dir (upper sec) 0 else nth dir (lower sec) 0) = face D dir side ->
  exists d', wall_direction refl zeros alpha A sec dir side g P dir (Some d) = Some d' /\
    (forall i j, in_box (grow_box P g) i -> in_box sec i -> mirror_image (face D dir side) dir i j ->
       in_box (grow_box P g) j /\ ((0 < alpha i)%R /\ (0 < alpha j)%R -> d' i = refl (d j)) /\ (~ ((0 < alpha i)%R /\ (0 < alpha j)%R) -> d' i = zeros)) /\
    (forall i, ~ (in_box (grow_box P g) i /\ in_box sec i) -> d' i = d i) /\
    (forall i, in_box D i -> d' i = d i) /\
    (forall other, other <> dir -> wall_direction refl zeros alpha A sec dir side g P other (Some d) = Some d).
Proof.
  intros S refl zeros alpha n D P sec A dir side g d HD HP HF HA Hd Hs Hg HPD HVA Hfc.
  assert (HM : forall i j, in_box (grow_box P g) i -> in_box sec i -> mirror_image (face D dir side) dir i j -> in_box (grow_box P g) j).
  { intros i j Hi Hsec (Lj & Ej & Oj). apply (grow_box_spec n P g i HP) in Hi. destruct Hi as [Li Hi]. pose proof (proj1 (in_box_spec n sec i HF) Hsec) as [_ Hsec'].
    apply (grow_box_spec n P g j HP). split; [lia|]. intros r Hr. destruct (Nat.eq_dec r dir) as [-> |N]; [|rewrite Oj by exact N; now apply Hi].
    specialize (Hi dir Hd). specialize (Hsec' dir Hd). specialize (HPD dir Hd). rewrite Ej. unfold face in *. destruct Hs as [-> | ->]; cbn [Z.eqb] in *; lia. }
  destruct (wall_patch_spec refl zeros alpha n A sec P dir side g d HA HP HF Hd Hg HVA) as (d' & E & B1 & B2).
  - specialize (HPD dir Hd). rewrite Hfc. unfold face. destruct Hs as [-> | ->]; cbn [Z.eqb]; lia.
  - rewrite Hfc. exact HM.
  - rewrite Hfc in B1. exists d'. split; [unfold wall_direction; rewrite Nat.eqb_refl; exact E|]. split; [|split; [exact B2|split]].
    + intros i j Hi Hsec Hm. split; [now apply (HM i j)|]. destruct (B1 i j Hi Hsec Hm) as [C1 C2]. split; [intros [Q1 Q2]; now apply C1|exact C2].
    + intros i Hi. apply B2. intros [_ Hsec]. pose proof (proj1 (in_box_spec n sec i HF) Hsec) as [_ H1]. pose proof (proj1 (in_box_spec n D i HD) Hi) as [_ H2].
      specialize (H1 dir Hd). specialize (H2 dir Hd). unfold face in Hfc. destruct Hs as [-> | ->]; cbn [Z.eqb] in *; lia.
    + intros other N. unfold wall_direction. destruct (Nat.eqb_spec other dir); [contradiction|reflexivity].
Qed.
Print Assumptions C154_wall.

(** Full claim: the wall leaves cells of the domain alone on all levels. The section is not refined: a section above a coarse
    domain of w cells lies inside the domain of 2 w cells of the next level, and the cells there are overwritten. *)
Theorem C154_levels_refuted : forall (S : Type) (refl : S -> S) (zeros : S) (w g : Z) (d : index -> S), 1 <= g <= w ->
  let coarse := mkBox [0] [w] in let fine := mkBox [0] [2 * w] in let sec := mkBox [w] [w + g] in
  nth 0 (lower sec) 0 = face coarse 0 1 /\ in_box fine [w] /\
  exists d', wall_direction refl zeros (fun _ => 1%R) (grow_box fine g) sec 0 1 g fine 0 (Some d) = Some d' /\ d' [w] = refl (d [w - 1]).
Proof.
  intros S refl zeros w g d Hg. cbv zeta. set (fine := mkBox [0] [2 * w]). set (sec := mkBox [w] [w + g]).
  assert (Rf : box_of_rank 1 fine) by (split; reflexivity). assert (Rs : box_of_rank 1 sec) by (split; reflexivity).
  assert (Rg : box_of_rank 1 (grow_box fine g)) by now apply grow_box_rank.
  split; [reflexivity|]. split; [apply (in_box_spec 1 fine _ Rf); split; [reflexivity|]; intros r Hr; assert (r = O) as -> by lia; unfold fine; cbn [lower upper nth]; lia|].
  assert (HM : forall i j, in_box (grow_box fine g) i -> in_box sec i -> mirror_image w 0 i j -> in_box (grow_box fine g) j).
  { intros i j _ Hsec (Lj & Ej & _). pose proof (proj1 (in_box_spec 1 sec i Rs) Hsec) as [Li Hi]. apply (grow_box_spec 1 fine g j Rf). split; [lia|].
    intros r Hr. assert (r = O) as -> by lia. specialize (Hi O ltac:(lia)). unfold sec in Hi; cbn [lower upper nth] in Hi. rewrite Ej. unfold fine; cbn [lower upper nth]. lia. }
  destruct (wall_patch_spec refl zeros (fun _ => 1%R) 1 (grow_box fine g) sec fine 0 1 g d Rg Rf Rs ltac:(lia) ltac:(lia)) as (d' & E & B & _).
  - intros i Hi. exact Hi.
  - unfold fine, sec; cbn [lower upper nth Z.eqb]. lia.
  - exact HM.
  - exists d'. split; [exact E|]. apply (B [w] [w - 1]).
    + apply (grow_box_spec 1 fine g _ Rf). split; [reflexivity|]. intros r Hr. assert (r = O) as -> by lia. unfold fine, sec; cbn [lower upper nth]. lia.
    + apply (in_box_spec 1 sec _ Rs). split; [reflexivity|]. intros r Hr. assert (r = O) as -> by lia. unfold fine, sec; cbn [lower upper nth]. lia.
    + split; [reflexivity|]. split; [unfold sec; change (1 =? 0) with false; cbn [nth lower]; lia|]. intros [|r] N; [contradiction|]. cbn. now destruct r.
    + lra.
    + lra.
Qed.
Print Assumptions C154_levels_refuted.

(** Two by four cells, the wall covers the lower half of the left boundary; cell [1; 1] is covered. *)
Example C154_example :
  let D := mkBox [0; 0] [2; 4] in let sec := mkBox [-2; 0] [0; 2] in let alpha := fun i : index => if list_eq_dec Z.eq_dec i [1; 1] then 0%R else 1%R in
  let d := fun i : index => nth 0 i 0 + 10 * nth 1 i 0 in
  exists d', wall_direction Z.opp 99 alpha (grow_box D 2) sec 0 0 2 D 0 (Some d) = Some d' /\
    d' [-1; 1] = - d [0; 1] /\ d' [-2; 0] = - d [1; 0] /\ d' [-2; 1] = 99 /\ d' [-1; 3] = d [-1; 3].
Proof.
  cbv zeta. set (D := mkBox [0; 0] [2; 4]). set (sec := mkBox [-2; 0] [0; 2]).
  set (alpha := fun i : index => if list_eq_dec Z.eq_dec i [1; 1] then 0%R else 1%R). set (d := fun i : index => nth 0 i 0 + 10 * nth 1 i 0).
  assert (RD : box_of_rank 2 D) by (split; reflexivity). assert (Rs : box_of_rank 2 sec) by (split; reflexivity).
  destruct (C154_wall Z Z.opp 99 alpha 2 D D sec (grow_box D 2) 0 0 2 d RD RD Rs (grow_box_rank 2 D 2 RD) ltac:(lia) (or_introl eq_refl) ltac:(lia)) as (d' & E & B & K & _).
  - intros [|[|r]] Hr; cbn; lia.
  - intros i Hi. exact Hi.
  - reflexivity.
  - exists d'. split; [exact E|].
    assert (In1 : forall a b, -2 <= a < 4 -> -2 <= b < 6 -> in_box (grow_box D 2) [a; b]).
    { intros a b Ha Hb. apply (grow_box_spec 2 D 2 _ RD). split; [reflexivity|]. intros [|[|r]] Hr; cbn; lia. }
    assert (In2 : forall a b, -2 <= a < 0 -> 0 <= b < 2 -> in_box sec [a; b]).
    { intros a b Ha Hb. apply (in_box_spec 2 sec _ Rs). split; [reflexivity|]. intros [|[|r]] Hr; cbn; lia. }
    assert (M : forall a b, mirror_image (face D 0 0) 0 [a; b] [-1 - a; b]).
    { intros a b. split; [reflexivity|]. split; [cbn; lia|]. intros [|[|[|r]]] N; try contradiction; reflexivity. }
    assert (Al : forall i, i <> [1; 1] -> alpha i = 1%R) by (intros i N; unfold alpha; destruct (list_eq_dec Z.eq_dec i [1; 1]); [contradiction|reflexivity]).
    split; [|split; [|split]].
    + apply (B [-1; 1] [0; 1]); [apply In1; lia|apply In2; lia|apply (M (-1) 1)|]. rewrite !Al by discriminate. lra.
    + apply (B [-2; 0] [1; 0]); [apply In1; lia|apply In2; lia|apply (M (-2) 0)|]. rewrite !Al by discriminate. lra.
    + apply (B [-2; 1] [1; 1]); [apply In1; lia|apply In2; lia|apply (M (-2) 1)|]. unfold alpha at 2. destruct (list_eq_dec Z.eq_dec [1; 1] [1; 1]); [lra|contradiction].
    + apply K. intros [_ Q]. apply (in_box_spec 2 sec _ Rs) in Q. destruct Q as [_ Q]. specialize (Q 1%nat ltac:(lia)). cbn in Q. lia.
Qed.
