(** Lemmas for C130: the cells of the outflow boundary. *)
From Coq Require Import List Reals ZArith Bool Lia Lra Psatz.
From Verif Require Import ArrayModel ArraySpec ArrayProofs BoxProofs StableDtProofs BoundaryModel BoundarySpec BoundaryProofs BoundaryProofs2 TurbineModel.
Import ListNotations.
Local Open Scope Z_scope.

(** [transfer_all] for functions which depend on the cell *)
Lemma transfer_cells {S} (f : index -> S -> S) V (src : index -> index) l : forall (d : @fab S),
  (forall i, In i l -> ContainsIndex V (src i) = true /\ ContainsIndex V i = true) ->
  (forall i, In i l -> ~ In (src i) l) ->
  exists d', fold_left (fun d i => transfer (f i) V i (src i) d) l (Some d) = Some d' /\
    forall k, (In k l -> d' k = f k (d (src k))) /\ (~ In k l -> d' k = d k).
Proof.
  intros d HV HS.
  assert (forall l1 d0, incl l1 l -> (forall k, ~ In k l -> d0 k = d k) ->
    exists d', fold_left (fun d i => transfer (f i) V i (src i) d) l1 (Some d0) = Some d' /\
      (forall k, In k l1 -> d' k = f k (d (src k))) /\ (forall k, ~ In k l1 -> d' k = d0 k)) as A.
  { induction l1 as [|i l1 IH]; intros d0 Hi Ho.
    - exists d0. split; [reflexivity|]. split; [intros k []|reflexivity].
    - cbn [fold_left]. unfold transfer at 2.
      assert (In i l) as Il by (apply Hi; left; reflexivity).
      destruct (HV i Il) as [V1 V2]. rewrite V1, V2. cbn [andb].
      assert (f i (d0 (src i)) = f i (d (src i))) as E by (rewrite (Ho _ (HS i Il)); reflexivity).
      destruct (IH (put d0 i (f i (d0 (src i))))) as (d' & F & B & C).
      + intros k Hk. apply Hi. right. assumption.
      + intros k Hk. rewrite put_other; [apply Ho, Hk | intros ->; contradiction].
      + exists d'. split; [assumption|]. split.
        * intros k [<- | Hk]; [|apply B, Hk].
          destruct (in_dec (list_eq_dec Z.eq_dec) i l1) as [J | J]; [apply B, J|].
          rewrite (C i J), put_same. assumption.
        * intros k Hk. rewrite C by (intros J; apply Hk; right; assumption).
          apply put_other. intros ->. apply Hk. left. reflexivity. }
  destruct (A l d (incl_refl _)) as (d' & E & B & C); [reflexivity |].
  exists d'. split; [assumption|]. intros k. split; [apply B | apply C].
Qed.

Lemma fold_left_ext_cells {A B} (h k : A -> B -> A) l : (forall a b, In b l -> h a b = k a b) -> forall a,
  fold_left h l a = fold_left k l a.
Proof. apply fold_left_ext_in. Qed.

Section Patch.
Context {S : Type}.
Variables (cell : R -> R -> S -> S) (alpha : index -> R) (n : nat) (D G : IndexBox) (bs : list IndexBox) (dir : nat) (side g : Z) (P : IndexBox).
Variable d : @fab S.
Hypothesis HD : box_of_rank n D.
Hypothesis HP : box_of_rank n P.
Hypothesis HG : box_of_rank n G.
Hypothesis Hd : (dir < n)%nat.
Hypothesis Hg : 0 < g.
Hypothesis Hs : side = 0 \/ side = 1.
Hypothesis NP : nonempty P.
Hypothesis SP : subbox P D.
Hypothesis Hdec : decomposition n D G bs.

Let src (i : index) := set_nth i dir (last_cell D dir side).

(** the box of the ghost cells ends at the boundary of the domain *)
Lemma box_end b : In b bs -> selected D dir side g b = true -> isEmpty (meet (grow_box P g) b) = false ->
  (if Z.eqb side 0 then nthZ (upper (meet (grow_box P g) b)) dir else nthZ (lower (meet (grow_box P g) b)) dir - 1) = last_cell D dir side.
Proof.
  intros Ib Es Ee. pose proof (proj1 Hdec b Ib) as [Rb _].
  pose proof (selected_layer n D D G bs dir side g b HD Hd ltac:(lia) Hs eq_refl eq_refl ltac:(intros; lia) Hdec Ib Es) as [S0 S1].
  pose proof (patch_bounds n P D dir HP HD NP SP Hd) as PB.
  pose proof (grow_box_rank n P g HP) as RV.
  apply (isEmpty_spec n _ (meet_rank n _ _ RV Rb)) in Ee as (i & Hi). apply (meet_spec n _ _ i RV Rb) in Hi as [I1 I2].
  pose proof (proj1 (in_box_spec n _ i RV) I1) as [_ J1]. pose proof (proj1 (in_box_spec n _ i Rb) I2) as [_ J2].
  specialize (J1 dir Hd). specialize (J2 dir Hd).
  destruct HP as [P1 P2]. destruct Rb as [B1 B2].
  rewrite grow_box_lower, grow_box_upper in J1 by lia.
  unfold nthZ, meet, last_cell. cbn [lower upper].
  assert (forall f (a b : list Z), length a = n -> length b = n -> nth dir (map2 f a b) 0 = f (nth dir a 0) (nth dir b 0)) as M.
  { clear -Hd. intros f a. revert n dir Hd. induction a as [|x a IH]; intros n dir Hd b E1 E2; cbn in E1; [lia|].
    destruct b as [|y b]; cbn in E2; [lia|]. destruct dir as [|e]; [reflexivity|]. cbn.
    apply (IH (pred n)); lia. }
  destruct RV as [R1 R2].
  destruct Hs as [-> | ->]; cbn [Z.eqb].
  - rewrite M by assumption. rewrite grow_box_upper by lia. rewrite S0 in * by reflexivity. lia.
  - rewrite M by assumption. rewrite grow_box_lower by lia. rewrite S1 in * by reflexivity. lia.
Qed.

Lemma source_cell i : in_box (grow_box P g) i -> beyond D dir side i ->
  in_box (grow_box P g) (src i) /\ ~ beyond D dir side (src i) /\ replaced dir (last_cell D dir side) i (src i).
Proof.
  intros Hi HB. pose proof (patch_bounds n P D dir HP HD NP SP Hd) as PB.
  pose proof (proj1 (grow_box_spec n P g i HP) Hi) as [L Hi'].
  assert (replaced dir (last_cell D dir side) i (src i)) as Rp by (apply set_nth_replaced; lia).
  split; [|split; [|assumption]]; destruct Rp as (Lj & Ej & Oj).
  - apply (grow_box_spec n P g _ HP). split; [congruence|]. intros r Hr.
    destruct (Nat.eq_dec r dir) as [-> | N]; [|rewrite Oj by assumption; apply Hi', Hr].
    rewrite Ej. specialize (Hi' dir Hd). rewrite beyond_cases in HB by assumption.
    unfold last_cell. destruct Hs as [-> | ->]; cbn [Z.eqb]; lia.
  - rewrite beyond_cases by assumption. rewrite Ej. unfold last_cell. destruct Hs as [-> | ->]; cbn [Z.eqb]; lia.
Qed.

Lemma outflow_list d0 : OutflowPatch cell alpha D bs dir side g P d0 =
  fold_left (fun d i => transfer (cell (alpha i) (alpha (src i))) (grow_box P g) i (src i) d) (destinations D bs dir side g P) d0.
Proof.
  unfold OutflowPatch, FillPatch, destinations.
  assert (forall l, incl l bs -> forall d0,
    fold_left (fun d boundary =>
      if negb (intersects D (shift_box boundary dir (GetSign side * g))) then d
      else let box_to_fill := meet (grow_box P g) boundary in
           if negb (isEmpty box_to_fill) then FillOutflow cell alpha dir side (grow_box P g) box_to_fill d else d) l d0 =
    fold_left (fun d i => transfer (cell (alpha i) (alpha (src i))) (grow_box P g) i (src i) d)
      (flat_map (fun b => if selected D dir side g b
                     then if isEmpty (meet (grow_box P g) b) then []
                          else loop_indices (lower (meet (grow_box P g) b)) (upper (meet (grow_box P g) b))
                     else []) l) d0) as A.
  { induction l as [|b l IH]; intros Hl d1; [reflexivity|].
    cbn [fold_left flat_map]. rewrite fold_left_app. fold (selected D dir side g b).
    rewrite IH by (intros x Hx; apply Hl; right; exact Hx). f_equal.
    destruct (selected D dir side g b) eqn:Es; cbn [negb]; [|reflexivity]. cbv zeta.
    destruct (isEmpty (meet (grow_box P g) b)) eqn:Ee; cbn [negb]; [reflexivity|].
    unfold FillOutflow. cbv zeta. rewrite (box_end b (Hl b (or_introl eq_refl)) Es Ee). reflexivity. }
  apply A. apply incl_refl.
Qed.

Lemma outflow_patch :
  exists d', OutflowPatch cell alpha D bs dir side g P (Some d) = Some d' /\
    (forall k j, In k (destinations D bs dir side g P) -> replaced dir (last_cell D dir side) k j ->
       d' k = cell (alpha k) (alpha j) (d j)) /\
    (forall k, ~ In k (destinations D bs dir side g P) -> d' k = d k) /\
    (forall k, In k (destinations D bs dir side g P) -> in_box (grow_box P g) k /\ beyond D dir side k).
Proof.
  assert (forall i, In i (destinations D bs dir side g P) -> in_box (grow_box P g) i /\ beyond D dir side i) as B
    by (intros i; apply (destinations_beyond n D D G bs dir side g P i); auto; intros; lia).
  rewrite outflow_list.
  destruct (transfer_cells (fun i => cell (alpha i) (alpha (src i))) (grow_box P g) src (destinations D bs dir side g P) d) as (d' & E & A).
  - intros i Hi. destruct (B i Hi) as [B1 B2]. destruct (source_cell i B1 B2) as [S1 _].
    split; apply (contains_true n); try assumption; apply grow_box_rank; assumption.
  - intros i Hi J. destruct (B i Hi) as [B1 B2]. destruct (source_cell i B1 B2) as (_ & S1 & _). apply S1, B, J.
  - exists d'. split; [exact E|]. split; [|split; [intros k; apply A | exact B]].
    intros k j Hk Hj. rewrite (proj1 (A k) Hk). destruct (B k Hk) as [B1 B2].
    destruct (source_cell k B1 B2) as (_ & _ & Rp). rewrite (replaced_unique _ _ _ _ _ Rp Hj). reflexivity.
Qed.
End Patch.
