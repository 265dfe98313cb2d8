(** Proofs for C154. *)
From Coq Require Import ZArith List Bool Reals Lia Lra.
From Verif Require Import ArrayModel ArraySpec ArrayProofs BoxProofs StableDtProofs BoundaryModel BoundarySpec BoundaryProofs WallModel.
Import ListNotations.
Open Scope Z_scope.

Lemma put_same {S} (d : @fab S) i s : put d i s i = s.
Proof. unfold put. destruct (list_eq_dec Z.eq_dec i i); [reflexivity|contradiction]. Qed.
Lemma put_other {S} (d : @fab S) i s k : k <> i -> put d i s k = d k.
Proof. intros N. unfold put. destruct (list_eq_dec Z.eq_dec k i); [contradiction|reflexivity]. Qed.

(** A loop that stores values made from cells it does not store to *)
Lemma store_loop {S} (step : index -> option (@fab S) -> option fab) (src : index -> index) (val : index -> S -> S) (L : list index) :
  (forall i d, In i L -> step i (Some d) = Some (put d i (val i (d (src i))))) -> (forall i, In i L -> ~ In (src i) L) ->
  forall l, incl l L -> forall d, exists d', fold_left (fun d i => step i d) l (Some d) = Some d' /\
    (forall i, In i l -> d' i = val i (d (src i))) /\ (forall i, ~ In i l -> d' i = d i).
Proof.
  intros Hs Hn. induction l as [|k l IH]; intros I d.
  - exists d. split; [reflexivity|]. split; [intros i []|reflexivity].
  - cbn [fold_left]. assert (Kl : In k L) by (apply I; now left). rewrite (Hs k d Kl).
    destruct (IH (fun i H => I i (or_intror H)) (put d k (val k (d (src k))))) as (d' & E & A & B). exists d'. split; [exact E|].
    assert (Src : forall i, In i L -> put d k (val k (d (src k))) (src i) = d (src i)).
    { intros i Hi. apply put_other. intros Q. apply (Hn i Hi). now rewrite Q. }
    split.
    + intros i Hi. destruct (in_dec (list_eq_dec Z.eq_dec) i l) as [H|H].
      * rewrite (A i H), Src; [reflexivity|]. apply I. now right.
      * destruct Hi as [<-|Hi]; [|contradiction]. rewrite (B k H). apply put_same.
    + intros i Hi. rewrite (B i) by (intros Q; apply Hi; now right). apply put_other. intros ->. apply Hi. now left.
Qed.

Definition fill_face (F : IndexBox) (dir : nat) (side : Z) : Z := if side =? 0 then nth dir (upper F) 0 else nth dir (lower F) 0.

Lemma wall_fill {S} (refl : S -> S) (zeros : S) (alpha : index -> R) n A V F dir side (d : @fab S) :
  box_of_rank n A -> box_of_rank n V -> box_of_rank n F -> (dir < n)%nat -> subbox F V -> subbox V A ->
  (forall i j, in_box F i -> mirror_image (fill_face F dir side) dir i j -> in_box V j) ->
  exists d', ForEachIndex F (wall_cell refl zeros alpha A V F dir side) (Some d) = Some d' /\
    (forall i j, in_box F i -> mirror_image (fill_face F dir side) dir i j -> (0 < alpha i)%R -> (0 < alpha j)%R -> d' i = refl (d j)) /\
    (forall i j, in_box F i -> mirror_image (fill_face F dir side) dir i j -> ~ ((0 < alpha i)%R /\ (0 < alpha j)%R) -> d' i = zeros) /\
    (forall i, ~ in_box F i -> d' i = d i).
Proof.
  intros HA HV HF Hd HS HVA HM. unfold ForEachIndex.
  set (src := fun i => ReflectIndex i F dir side).
  set (val := fun i s => if Rlt_dec 0 (alpha i) then if Rlt_dec 0 (alpha (src i)) then refl s else zeros else zeros).
  assert (Mi : forall i, in_box F i -> mirror_image (fill_face F dir side) dir i (src i)).
  { intros i Hi. pose proof (proj1 (in_box_spec n F i HF) Hi) as [Li _]. apply reflect_index_mirror. lia. }
  destruct (store_loop (wall_cell refl zeros alpha A V F dir side) src val (loop_indices (lower F) (upper F))) with (l := loop_indices (lower F) (upper F)) (d := d) as (d' & E & A1 & A2).
  - intros i d0 Hi. apply (BoundaryProofs.in_loop n F i HF) in Hi. pose proof (HM i (src i) Hi (Mi i Hi)) as Hj. pose proof (HS i Hi) as Hv.
    unfold wall_cell. fold (src i). unfold is_open. rewrite (contains_true n A i HA (HVA i Hv)), (contains_true n A (src i) HA (HVA _ Hj)), (contains_true n V i HV Hv).
    unfold transfer. rewrite (contains_true n V (src i) HV Hj), (contains_true n V i HV Hv). unfold val.
    destruct (Rlt_dec 0 (alpha i)); [|reflexivity]. destruct (Rlt_dec 0 (alpha (src i))); reflexivity.
  - intros i Hi Hj. apply (BoundaryProofs.in_loop n F i HF) in Hi. apply (BoundaryProofs.in_loop n F _ HF) in Hj.
    destruct (Mi i Hi) as (_ & Em & _). unfold fill_face in Em. pose proof (proj1 (in_box_spec n F i HF) Hi) as [_ Hi']. pose proof (proj1 (in_box_spec n F _ HF) Hj) as [_ Hj'].
    specialize (Hi' dir Hd). specialize (Hj' dir Hd). destruct (side =? 0); lia.
  - apply incl_refl.
  - exists d'. split; [exact E|]. split; [|split].
    + intros i j Hi Hm Oi Oj. rewrite (A1 i) by (apply (BoundaryProofs.in_loop n F i HF), Hi). rewrite (replaced_unique _ _ _ _ _ Hm (Mi i Hi)) in *. unfold val.
      destruct (Rlt_dec 0 (alpha i)); [|contradiction]. destruct (Rlt_dec 0 (alpha (src i))); [reflexivity|contradiction].
    + intros i j Hi Hm No. rewrite (A1 i) by (apply (BoundaryProofs.in_loop n F i HF), Hi). rewrite (replaced_unique _ _ _ _ _ Hm (Mi i Hi)) in *. unfold val.
      destruct (Rlt_dec 0 (alpha i)); [|reflexivity]. destruct (Rlt_dec 0 (alpha (src i))); [exfalso; apply No; now split|reflexivity].
    + intros i Hi. apply A2. intros Q. apply Hi, (BoundaryProofs.in_loop n F i HF), Q.
Qed.

(** One patch: the section touches the patch or the patch lies behind the face of the section *)
Lemma wall_patch_spec {S} (refl : S -> S) (zeros : S) (alpha : index -> R) n A sec P dir side g (d : @fab S) :
  box_of_rank n A -> box_of_rank n P -> box_of_rank n sec -> (dir < n)%nat -> 0 <= g -> subbox (grow_box P g) A ->
  let fc := if side =? 0 then nth dir (upper sec) 0 else nth dir (lower sec) 0 in
  (if side =? 0 then fc <= nth dir (upper P) 0 + g else nth dir (lower P) 0 - g <= fc) ->
  (forall i j, in_box (grow_box P g) i -> in_box sec i -> mirror_image fc dir i j -> in_box (grow_box P g) j) ->
  exists d', wall_patch refl zeros alpha A sec dir side g P (Some d) = Some d' /\
    (forall i j, in_box (grow_box P g) i -> in_box sec i -> mirror_image fc dir i j ->
       ((0 < alpha i)%R -> (0 < alpha j)%R -> d' i = refl (d j)) /\ (~ ((0 < alpha i)%R /\ (0 < alpha j)%R) -> d' i = zeros)) /\
    (forall i, ~ (in_box (grow_box P g) i /\ in_box sec i) -> d' i = d i).
Proof.
  intros HA HP HF Hd Hg HVA fc Hf HM. set (V := grow_box P g) in *. assert (HV : box_of_rank n V) by now apply grow_box_rank.
  set (F := meet V sec). assert (HFr : box_of_rank n F) by now apply meet_rank.
  assert (Sp : forall i, in_box F i <-> in_box V i /\ in_box sec i) by (intros i; now apply (meet_spec n)).
  unfold wall_patch. fold V. fold F. destruct (isEmpty F) eqn:Em.
  - exists d. split; [reflexivity|]. assert (No : forall i, ~ in_box F i). { intros i Hi. assert (isEmpty F = false) by (apply (isEmpty_spec n F HFr); now exists i). congruence. }
    split; [|reflexivity]. intros i j H1 H2. exfalso. apply (No i), Sp. now split.
  - assert (Fc : fill_face F dir side = fc).
    { unfold fill_face, fc, F, meet. cbn [lower upper]. destruct HP as [P1 P2], HF as [F1 F2], HV as [V1 V2].
      assert (NV1 : nth dir (lower V) 0 = nth dir (lower P) 0 - g) by (apply grow_box_lower; lia). assert (NV2 : nth dir (upper V) 0 = nth dir (upper P) 0 + g) by (apply grow_box_upper; lia).
      unfold fc in Hf. destruct (side =? 0).
      - rewrite nth_map2 by lia. lia.
      - rewrite nth_map2 by lia. lia. }
    destruct (wall_fill refl zeros alpha n A V F dir side d) as (d' & E & B1 & B2 & B3); try assumption.
    + intros i Hi. now apply Sp.
    + rewrite Fc. intros i j Hi. apply Sp in Hi. now apply HM.
    + rewrite Fc in *. exists d'. split; [exact E|]. split.
      * intros i j H1 H2 Hm. assert (Hi : in_box F i) by (apply Sp; now split). split; [intros; now apply (B1 i j)|intros; now apply (B2 i j)].
      * intros i Hi. apply B3. intros Q. apply Hi, Sp, Q.
Qed.
