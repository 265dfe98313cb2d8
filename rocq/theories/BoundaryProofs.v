(** Lemmas about filling ghost cells. *)
From Coq Require Import ZArith List Bool Lia.
From Verif Require Import ArrayModel ArraySpec ArrayProofs BoxProofs StableDtProofs BoundaryModel BoundarySpec.
Import ListNotations.
Open Scope Z_scope.

Lemma put_same {S} (d : @fab S) i s : put d i s i = s.
Proof. unfold put. destruct (list_eq_dec Z.eq_dec i i); [reflexivity | contradiction]. Qed.

Lemma put_other {S} (d : @fab S) i k s : k <> i -> put d i s k = d k.
Proof. intros H. unfold put. destruct (list_eq_dec Z.eq_dec k i); [contradiction | reflexivity]. Qed.

(** A list of transfers whose sources are no destinations, or whose function is constant. *)
Lemma transfer_all {S} (f : S -> S) V (src : index -> index) l : forall (d : @fab S),
  (forall i, In i l -> ContainsIndex V (src i) = true /\ ContainsIndex V i = true) ->
  (forall i, In i l -> ~ In (src i) l \/ forall s s', f s = f s') ->
  exists d', fold_left (fun d i => transfer f V i (src i) d) l (Some d) = Some d' /\
    forall k, (In k l -> d' k = f (d (src k))) /\ (~ In k l -> d' k = d k).
Proof.
  intros d HV HS.
  assert (forall l1 d0, incl l1 l ->
    (forall k, (~ In k l -> d0 k = d k)) ->
    (forall k, In k l -> d0 k = d k \/ d0 k = f (d (src k))) ->
    exists d', fold_left (fun d i => transfer f V i (src i) d) l1 (Some d0) = Some d' /\
      (forall k, In k l1 \/ d0 k = f (d (src k)) -> d' k = f (d (src k)) \/ (~ In k l1 /\ d' k = d0 k)) /\
      (forall k, In k l1 -> d' k = f (d (src k))) /\
      (forall k, ~ In k l1 -> d' k = d0 k)) as A.
  { induction l1 as [|i l1 IH]; intros d0 Hi Ho Hd.
    - exists d0. split; [reflexivity|]. split; [intros k [[] | E]; left; assumption|]. split; [intros k []|reflexivity].
    - cbn [fold_left]. unfold transfer at 2.
      assert (In i l) as Il by (apply Hi; left; reflexivity).
      destruct (HV i Il) as [V1 V2]. rewrite V1, V2. cbn [andb].
      assert (f (d0 (src i)) = f (d (src i))) as E.
      { destruct (HS i Il) as [N | C]; [rewrite (Ho _ N); reflexivity | apply C]. }
      destruct (IH (put d0 i (f (d0 (src i))))) as (d' & F & _ & B & C).
      + intros k Hk. apply Hi. right. assumption.
      + intros k Hk. rewrite put_other; [apply Ho, Hk | intros ->; contradiction].
      + intros k Hk. destruct (list_eq_dec Z.eq_dec k i) as [-> | N].
        * rewrite put_same. right. assumption.
        * rewrite put_other by assumption. apply Hd, Hk.
      + assert (forall k, In k (i :: l1) -> d' k = f (d (src k))) as B'.
        { intros k [<- | Hk]; [|apply B, Hk].
          destruct (in_dec (list_eq_dec Z.eq_dec) i l1) as [J | J]; [apply B, J|].
          rewrite (C i J), put_same. assumption. }
        assert (forall k, ~ In k (i :: l1) -> d' k = d0 k) as C'.
        { intros k Hk. rewrite C by (intros J; apply Hk; right; assumption).
          apply put_other. intros ->. apply Hk. left. reflexivity. }
        exists d'. split; [assumption|]. split; [|split; assumption].
        intros k _. destruct (in_dec (list_eq_dec Z.eq_dec) k (i :: l1)) as [J | J].
        * left. apply B', J.
        * right. split; [assumption | apply C', J]. }
  destruct (A l d (incl_refl _)) as (d' & E & _ & B & C); [reflexivity | left; reflexivity |].
  exists d'. split; [assumption|]. intros k. split; [apply B | apply C].
Qed.

(** ** Boxes *)

Lemma contains_true n b i : box_of_rank n b -> in_box b i -> ContainsIndex b i = true.
Proof.
  intros Hb H. apply (contains_index_spec n b i Hb); [|assumption].
  apply (in_box_spec n b i Hb) in H. tauto.
Qed.

Lemma map2_len {A B C} (f : A -> B -> C) a b : length a = length b -> length (map2 f a b) = length a.
Proof. intros H. unfold map2. rewrite map_length, combine_length. lia. Qed.

Lemma meet_rank n a b : box_of_rank n a -> box_of_rank n b -> box_of_rank n (meet a b).
Proof. intros [A1 A2] [B1 B2]. split; cbn [meet lower upper]; rewrite map2_len; congruence. Qed.

Lemma meet_spec n a b i : box_of_rank n a -> box_of_rank n b -> in_box (meet a b) i <-> in_box a i /\ in_box b i.
Proof.
  intros Ha Hb. rewrite (in_box_spec n _ i (meet_rank n a b Ha Hb)), (in_box_spec n a i Ha), (in_box_spec n b i Hb).
  destruct Ha as [A1 A2], Hb as [B1 B2]. cbn [meet lower upper].
  split.
  - intros [L H]. split; (split; [assumption|]); intros r Hr; specialize (H r Hr);
      rewrite !nth_map2 in H by lia; lia.
  - intros [[L H1] [_ H2]]. split; [assumption|]. intros r Hr. specialize (H1 r Hr). specialize (H2 r Hr).
    rewrite !nth_map2 by lia. lia.
Qed.

(** A box is not empty iff it has a cell. *)
Lemma isEmpty_spec n b : box_of_rank n b -> (isEmpty b = false <-> exists i, in_box b i).
Proof.
  intros Hb. split.
  - intros E. exists (lower b). apply (in_box_spec n b _ Hb). destruct Hb as [B1 B2]. split; [assumption|].
    intros r Hr. split; [lia|].
    unfold isEmpty in E. destruct (Z_lt_le_dec (nth r (lower b) 0) (nth r (upper b) 0)) as [L | L]; [assumption|].
    exfalso. assert (existsb (fun p => snd p <=? fst p) (combine (lower b) (upper b)) = true) as T; [|congruence].
    apply existsb_exists. exists (nth r (lower b) 0, nth r (upper b) 0). split.
    + rewrite <- combine_nth by congruence. apply nth_In. rewrite combine_length. lia.
    + cbn [fst snd]. apply Z.leb_le. assumption.
  - intros [i H]. apply (in_box_spec n b i Hb) in H. destruct H as [L H]. destruct Hb as [B1 B2].
    unfold isEmpty. destruct (existsb _ _) eqn:E; [|reflexivity]. exfalso.
    apply existsb_exists in E as ([x y] & I & C). cbn [fst snd] in C. apply Z.leb_le in C.
    apply (In_nth _ _ (0, 0)) in I as (r & Hr & E). rewrite combine_length in Hr.
    rewrite combine_nth in E by congruence. injection E as E1 E2. specialize (H r ltac:(lia)). lia.
Qed.

Lemma intersects_spec n a b : box_of_rank n a -> box_of_rank n b ->
  (intersects a b = true <-> exists i, in_box a i /\ in_box b i).
Proof.
  intros Ha Hb. unfold intersects. rewrite negb_true_iff, (isEmpty_spec n) by (apply meet_rank; assumption).
  split; intros [i H]; exists i; apply (meet_spec n a b i Ha Hb); assumption.
Qed.

Lemma shift_box_rank n b dir k : box_of_rank n b -> box_of_rank n (shift_box b dir k).
Proof. intros [B1 B2]. split; cbn [shift_box lower upper]; unfold Shift; rewrite set_nth_length; assumption. Qed.

Lemma shift_box_spec n b dir k i : box_of_rank n b -> (dir < n)%nat ->
  in_box (shift_box b dir k) i <->
  length i = n /\ nth dir (lower b) 0 + k <= nth dir i 0 < nth dir (upper b) 0 + k /\
  forall r, (r < n)%nat -> r <> dir -> nth r (lower b) 0 <= nth r i 0 < nth r (upper b) 0.
Proof.
  intros Hb Hd. rewrite (in_box_spec n _ i (shift_box_rank n b dir k Hb)). destruct Hb as [B1 B2].
  cbn [shift_box lower upper]. unfold Shift, nthZ. split.
  - intros [L H]. split; [assumption|]. split.
    + specialize (H dir Hd). rewrite !nth_set_nth, Nat.eqb_refl in H.
      destruct (Nat.ltb_spec dir (length (lower b))); [|lia].
      destruct (Nat.ltb_spec dir (length (upper b))); [|lia]. exact H.
    + intros r Hr N. specialize (H r Hr). rewrite !nth_set_nth in H.
      destruct (Nat.eqb_spec r dir); [contradiction|]. exact H.
  - intros (L & H1 & H2). split; [assumption|]. intros r Hr. rewrite !nth_set_nth.
    destruct (Nat.eqb_spec r dir) as [-> | N]; cbn [andb]; [|apply H2; assumption].
    destruct (Nat.ltb_spec dir (length (lower b))); [|lia].
    destruct (Nat.ltb_spec dir (length (upper b))); [|lia]. exact H1.
Qed.

Lemma grow_box_rank n b g : box_of_rank n b -> box_of_rank n (grow_box b g).
Proof. intros [B1 B2]. split; cbn [grow_box lower upper]; rewrite map_length; assumption. Qed.

Lemma grow_box_lower b g r : (r < length (lower b))%nat -> nth r (lower (grow_box b g)) 0 = nth r (lower b) 0 - g.
Proof.
  intros H. cbn [grow_box lower]. rewrite (nth_indep _ 0 (0 - g)) by (rewrite map_length; assumption).
  apply (map_nth (fun k => k - g)).
Qed.

Lemma grow_box_upper b g r : (r < length (upper b))%nat -> nth r (upper (grow_box b g)) 0 = nth r (upper b) 0 + g.
Proof.
  intros H. cbn [grow_box upper]. rewrite (nth_indep _ 0 (0 + g)) by (rewrite map_length; assumption).
  apply (map_nth (fun k => k + g)).
Qed.

Lemma grow_box_spec n b g i : box_of_rank n b ->
  in_box (grow_box b g) i <-> length i = n /\
  forall r, (r < n)%nat -> nth r (lower b) 0 - g <= nth r i 0 < nth r (upper b) 0 + g.
Proof.
  intros Hb. rewrite (in_box_spec n _ i (grow_box_rank n b g Hb)). destruct Hb as [B1 B2].
  split; intros [L H]; (split; [assumption|]); intros r Hr; specialize (H r Hr);
    rewrite ?grow_box_lower, ?grow_box_upper in * by lia; assumption.
Qed.

Lemma set_nth_replaced i dir v : (dir < length i)%nat -> replaced dir v i (set_nth i dir v).
Proof.
  intros H. split; [apply set_nth_length|]. split.
  - rewrite nth_set_nth, Nat.eqb_refl. destruct (Nat.ltb_spec dir (length i)); [reflexivity | lia].
  - intros r N. rewrite nth_set_nth. destruct (Nat.eqb_spec r dir); [contradiction | reflexivity].
Qed.

Lemma list_nth_ext (a b : list Z) : length a = length b -> (forall r, (r < length a)%nat -> nth r a 0 = nth r b 0) -> a = b.
Proof.
  revert b; induction a as [|x a IH]; intros [|y b] L H; try discriminate; [reflexivity|].
  f_equal; [apply (H 0%nat); simpl; lia|]. apply IH; [simpl in L; lia|]. intros r Hr. apply (H (Datatypes.S r)). simpl. lia.
Qed.

Lemma replaced_unique dir v i j k : replaced dir v i j -> replaced dir v i k -> j = k.
Proof.
  intros (L1 & A1 & B1) (L2 & A2 & B2). apply list_nth_ext; [congruence|]. intros r _.
  destruct (Nat.eq_dec r dir) as [-> | N]; [congruence | rewrite B1, B2 by assumption; reflexivity].
Qed.

Lemma reflect_index_mirror i F dir side : (dir < length i)%nat ->
  mirror_image (if side =? 0 then nth dir (upper F) 0 else nth dir (lower F) 0) dir i (ReflectIndex i F dir side).
Proof.
  intros H. unfold mirror_image, ReflectIndex, nthZ. destruct (side =? 0).
  - replace (nth dir i 0 + (2 * (nth dir (upper F) 0 - nth dir i 0) - 1))
      with (2 * nth dir (upper F) 0 - 1 - nth dir i 0) by lia. apply set_nth_replaced, H.
  - replace (nth dir i 0 - 2 * (nth dir i 0 - (nth dir (lower F) 0 - 1)) + 1)
      with (2 * nth dir (lower F) 0 - 1 - nth dir i 0) by lia. apply set_nth_replaced, H.
Qed.

Lemma in_loop n F i : box_of_rank n F -> In i (loop_indices (lower F) (upper F)) <-> in_box F i.
Proof. intros [F1 F2]. apply loop_indices_in. congruence. Qed.

(** ** One box *)

Lemma fill_reflective {S} (f : S -> S) n V F dir side (d : @fab S) :
  box_of_rank n V -> box_of_rank n F -> (dir < n)%nat ->
  subbox F V ->
  (forall i j, in_box F i -> mirror_image (if side =? 0 then nth dir (upper F) 0 else nth dir (lower F) 0) dir i j ->
     in_box V j) ->
  exists d', FillReflective f V F dir side (Some d) = Some d' /\
    (forall i j, in_box F i -> mirror_image (if side =? 0 then nth dir (upper F) 0 else nth dir (lower F) 0) dir i j ->
       d' i = f (d j)) /\
    (forall i, ~ in_box F i -> d' i = d i).
Proof.
  intros HV HF Hd HS HM. unfold FillReflective, ForEachIndex.
  destruct (transfer_all f V (fun i => ReflectIndex i F dir side) (loop_indices (lower F) (upper F)) d) as (d' & E & A).
  - intros i Hi. apply (in_loop n F i HF) in Hi.
    pose proof (proj1 (in_box_spec n F i HF) Hi) as [L _]. split; apply (contains_true n); try assumption.
    + apply (HM i); [assumption|]. apply reflect_index_mirror. lia.
    + apply HS, Hi.
  - intros i Hi. left. intros Hj. apply (in_loop n F i HF) in Hi. apply (in_loop n F _ HF) in Hj.
    pose proof (proj1 (in_box_spec n F i HF) Hi) as [L Hi']. pose proof (proj1 (in_box_spec n F _ HF) Hj) as [_ Hj'].
    specialize (Hi' dir Hd). specialize (Hj' dir Hd).
    destruct (reflect_index_mirror i F dir side ltac:(lia)) as (_ & E & _).
    destruct (side =? 0); lia.
  - exists d'. split; [assumption|]. split.
    + intros i j Hi Hm. pose proof (proj1 (in_box_spec n F i HF) Hi) as [L _].
      rewrite (replaced_unique _ _ _ _ _ Hm (reflect_index_mirror i F dir side ltac:(lia))).
      apply A, (in_loop n F i HF), Hi.
    + intros i Hi. apply A. intros J. apply Hi, (in_loop n F i HF), J.
Qed.

(** ** One patch *)

(** The boxes the condition fills. *)
Definition selected (D : IndexBox) (dir : nat) (side g : Z) (b : IndexBox) : bool :=
  intersects D (shift_box b dir (GetSign side * g)).

(** All the cells that are filled, in order. *)
Definition destinations (D : IndexBox) (bs : list IndexBox) (dir : nat) (side g : Z) (P : IndexBox) : list index :=
  flat_map (fun b => if selected D dir side g b
                     then if isEmpty (meet (grow_box P g) b) then []
                          else loop_indices (lower (meet (grow_box P g) b)) (upper (meet (grow_box P g) b))
                     else []) bs.

Lemma fill_patch_list {S} (f : S -> S) (src : index -> index)
    (fill : IndexBox -> IndexBox -> option (@fab S) -> option fab) D bs dir side g P :
  (forall b, In b bs -> selected D dir side g b = true -> isEmpty (meet (grow_box P g) b) = false -> forall d,
     fill (grow_box P g) (meet (grow_box P g) b) d =
     fold_left (fun d i => transfer f (grow_box P g) i (src i) d)
       (loop_indices (lower (meet (grow_box P g) b)) (upper (meet (grow_box P g) b))) d) ->
  forall d, FillPatch fill D bs dir side g P d =
    fold_left (fun d i => transfer f (grow_box P g) i (src i) d) (destinations D bs dir side g P) d.
Proof.
  unfold FillPatch, destinations. induction bs as [|b bs IH]; intros H d; [reflexivity|].
  cbn [fold_left flat_map]. rewrite fold_left_app.
  fold (selected D dir side g b).
  specialize (H b (or_introl eq_refl)) as Hb.
  rewrite IH by (intros b' Hb'; apply H; right; assumption). f_equal.
  destruct (selected D dir side g b); cbn [negb]; [|reflexivity].
  destruct (isEmpty (meet (grow_box P g) b)); cbn [negb]; [reflexivity|]. apply Hb; reflexivity.
Qed.

Lemma in_destinations n D bs dir side g P i :
  box_of_rank n P -> (forall b, In b bs -> box_of_rank n b) ->
  In i (destinations D bs dir side g P) <->
  in_box (grow_box P g) i /\ exists b, In b bs /\ selected D dir side g b = true /\ in_box b i.
Proof.
  intros HP Hbs. unfold destinations. rewrite in_flat_map. split.
  - intros (b & Hb & Hi). pose proof (Hbs b Hb) as Rb. pose proof (grow_box_rank n P g HP) as RV.
    destruct (selected D dir side g b) eqn:Es; [|contradiction].
    destruct (isEmpty (meet (grow_box P g) b)) eqn:Ee; [contradiction|].
    apply (in_loop n _ i (meet_rank n _ _ RV Rb)) in Hi. apply (meet_spec n _ _ i RV Rb) in Hi.
    split; [tauto|]. exists b. tauto.
  - intros (HV & b & Hb & Es & Hi). exists b. pose proof (Hbs b Hb) as Rb. pose proof (grow_box_rank n P g HP) as RV.
    split; [assumption|]. rewrite Es.
    assert (in_box (meet (grow_box P g) b) i) as M by (apply (meet_spec n _ _ i RV Rb); tauto).
    rewrite (proj2 (isEmpty_spec n _ (meet_rank n _ _ RV Rb))) by (exists i; assumption).
    apply (in_loop n _ i (meet_rank n _ _ RV Rb)). assumption.
Qed.

(** A box that is selected is the layer at the side of the condition.  [D'] is the box whose complement is
    decomposed: the domain or the domain grown in the other directions. *)
Lemma selected_layer n D D' G bs dir side g b :
  box_of_rank n D -> (dir < n)%nat -> 0 <= g -> side = 0 \/ side = 1 ->
  nth dir (lower D') 0 = nth dir (lower D) 0 -> nth dir (upper D') 0 = nth dir (upper D) 0 ->
  (forall r, (r < n)%nat -> nth r (lower D') 0 <= nth r (lower D) 0 /\ nth r (upper D) 0 <= nth r (upper D') 0) ->
  decomposition n D' G bs -> In b bs -> selected D dir side g b = true ->
  (side = 0 -> nth dir (upper b) 0 = nth dir (lower D) 0) /\
  (side = 1 -> nth dir (lower b) 0 = nth dir (upper D) 0).
Proof.
  intros HD Hd Hg Hs E1 E2 Hr [Hb _] Ib Es. destruct (Hb b Ib) as (Rb & e & He & L).
  unfold selected in Es. apply (intersects_spec n D _ HD (shift_box_rank n b dir _ Rb)) in Es as (i & I1 & I2).
  apply (in_box_spec n D i HD) in I1 as [L1 I1]. apply (shift_box_spec n b dir _ i Rb Hd) in I2 as (L2 & I2 & I3).
  destruct (Nat.eq_dec e dir) as [-> | N].
  - specialize (I1 dir Hd). unfold layer in L.
    destruct Hs as [-> | ->]; [change (GetSign 0) with 1 in I2 | change (GetSign 1) with (-1) in I2];
      split; intros; lia.
  - specialize (I1 e He). specialize (I3 e He N). specialize (Hr e He). unfold layer in L. lia.
Qed.

Lemma beyond_cases D dir side i : side = 0 \/ side = 1 ->
  (beyond D dir side i <->
   (side = 0 /\ nth dir i 0 < nth dir (lower D) 0) \/ (side = 1 /\ nth dir (upper D) 0 <= nth dir i 0)).
Proof. intros [-> | ->]; unfold beyond, face; cbn; lia. Qed.

Lemma destinations_beyond n D D' G bs dir side g P i :
  box_of_rank n D -> box_of_rank n P -> (dir < n)%nat -> 0 <= g -> side = 0 \/ side = 1 ->
  nth dir (lower D') 0 = nth dir (lower D) 0 -> nth dir (upper D') 0 = nth dir (upper D) 0 ->
  (forall r, (r < n)%nat -> nth r (lower D') 0 <= nth r (lower D) 0 /\ nth r (upper D) 0 <= nth r (upper D') 0) ->
  decomposition n D' G bs -> In i (destinations D bs dir side g P) ->
  in_box (grow_box P g) i /\ beyond D dir side i.
Proof.
  intros HD HP Hd Hg Hs E1 E2 Hr Hdec Hi.
  apply (in_destinations n) in Hi; [|assumption|intros b Hb; apply Hdec, Hb].
  destruct Hi as (HV & b & Ib & Es & Hi). split; [assumption|].
  pose proof (selected_layer n D D' G bs dir side g b HD Hd Hg Hs E1 E2 Hr Hdec Ib Es) as [S0 S1].
  pose proof (proj1 (in_box_spec n b i (proj1 (proj1 Hdec b Ib))) Hi) as [_ Hb]. specialize (Hb dir Hd).
  apply beyond_cases; [assumption|]. destruct Hs as [E | E]; [left | right]; (split; [assumption|]); [rewrite <- S0 | rewrite <- S1]; lia.
Qed.

(** The result of filling a patch. *)
Lemma fill_patch_spec {S} (f : S -> S) (src : index -> index) fill n D D' G bs dir side g P (d : @fab S) :
  box_of_rank n D -> box_of_rank n P -> (dir < n)%nat -> 0 <= g -> side = 0 \/ side = 1 ->
  nth dir (lower D') 0 = nth dir (lower D) 0 -> nth dir (upper D') 0 = nth dir (upper D) 0 ->
  (forall r, (r < n)%nat -> nth r (lower D') 0 <= nth r (lower D) 0 /\ nth r (upper D) 0 <= nth r (upper D') 0) ->
  decomposition n D' G bs ->
  (forall b, In b bs -> selected D dir side g b = true -> isEmpty (meet (grow_box P g) b) = false -> forall d,
     fill (grow_box P g) (meet (grow_box P g) b) d =
     fold_left (fun d i => transfer f (grow_box P g) i (src i) d)
       (loop_indices (lower (meet (grow_box P g) b)) (upper (meet (grow_box P g) b))) d) ->
  (forall i, in_box (grow_box P g) i -> beyond D dir side i ->
     in_box (grow_box P g) (src i) /\ (~ beyond D dir side (src i) \/ forall s s', f s = f s')) ->
  exists d', FillPatch fill D bs dir side g P (Some d) = Some d' /\
    (forall k, In k (destinations D bs dir side g P) -> d' k = f (d (src k))) /\
    (forall k, ~ In k (destinations D bs dir side g P) -> d' k = d k).
Proof.
  intros HD HP Hd Hg Hs E1 E2 Hr Hdec Hfill Hsrc.
  rewrite (fill_patch_list f src fill D bs dir side g P Hfill).
  pose proof (fun i => destinations_beyond n D D' G bs dir side g P i HD HP Hd Hg Hs E1 E2 Hr Hdec) as B.
  destruct (transfer_all f (grow_box P g) src (destinations D bs dir side g P) d) as (d' & E & A).
  - intros i Hi. destruct (B i Hi) as [B1 B2]. destruct (Hsrc i B1 B2) as [S1 _].
    split; apply (contains_true n); try assumption; apply grow_box_rank; assumption.
  - intros i Hi. destruct (B i Hi) as [B1 B2]. destruct (Hsrc i B1 B2) as [_ [S1 | S1]]; [left | right; assumption].
    intros J. apply S1, B, J.
  - exists d'. split; [assumption|]. split; intros k; apply A.
Qed.

(** ** Reflection *)

Lemma patch_bounds n P D r : box_of_rank n P -> box_of_rank n D -> nonempty P -> subbox P D -> (r < n)%nat ->
  nth r (lower D) 0 <= nth r (lower P) 0 /\ nth r (lower P) 0 < nth r (upper P) 0 /\
  nth r (upper P) 0 <= nth r (upper D) 0.
Proof.
  intros HP HD [i Hi] HS Hr.
  pose proof (proj1 (in_box_spec n P i HP) Hi) as [L Hi']. pose proof (Hi' r Hr) as Hir.
  assert (forall v, nth r (lower P) 0 <= v < nth r (upper P) 0 -> nth r (lower D) 0 <= v < nth r (upper D) 0) as A.
  { intros v Hv. assert (in_box P (set_nth i r v)) as I.
    { apply (in_box_spec n P _ HP). rewrite set_nth_length. split; [assumption|]. intros q Hq. rewrite nth_set_nth.
      destruct (Nat.eqb_spec q r) as [-> | N]; cbn [andb]; [|apply Hi', Hq].
      destruct (Nat.ltb_spec r (length i)); [assumption | lia]. }
    apply HS in I. apply (in_box_spec n D _ HD) in I as [_ I]. specialize (I r Hr).
    rewrite nth_set_nth, Nat.eqb_refl in I. destruct (Nat.ltb_spec r (length i)); [assumption | lia]. }
  pose proof (A (nth r (lower P) 0) ltac:(lia)). pose proof (A (nth r (upper P) 0 - 1) ltac:(lia)). lia.
Qed.

(** The source the loop uses, as a function of the destination alone *)
Definition mirrored (fc : Z) (dir : nat) (i : index) : index := set_nth i dir (2 * fc - 1 - nth dir i 0).

Lemma mirrored_spec fc dir i : (dir < length i)%nat -> mirror_image fc dir i (mirrored fc dir i).
Proof. apply set_nth_replaced. Qed.

Lemma reflect_index_mirrored i F dir side : (dir < length i)%nat ->
  ReflectIndex i F dir side = mirrored (if side =? 0 then nth dir (upper F) 0 else nth dir (lower F) 0) dir i.
Proof. intros H. eapply replaced_unique; [apply reflect_index_mirror, H | apply mirrored_spec, H]. Qed.

Lemma fold_left_ext_in {A B} (h k : A -> B -> A) l : (forall a b, In b l -> h a b = k a b) -> forall a,
  fold_left h l a = fold_left k l a.
Proof.
  induction l as [|b l IH]; intros H a; [reflexivity|]. cbn [fold_left]. rewrite H by (left; reflexivity).
  apply IH. intros a' b' Hb. apply H. right. assumption.
Qed.

Lemma mirror_in_grown n P D dir side g i j :
  box_of_rank n P -> box_of_rank n D -> (dir < n)%nat -> 0 <= g -> side = 0 \/ side = 1 ->
  nonempty P -> subbox P D -> in_box (grow_box P g) i -> beyond D dir side i ->
  mirror_image (face D dir side) dir i j -> in_box (grow_box P g) j /\ ~ beyond D dir side j.
Proof.
  intros HP HD Hd Hg Hs NP SP Hi Hb (L & E & O).
  pose proof (patch_bounds n P D dir HP HD NP SP Hd) as PB.
  apply (grow_box_spec n P g i HP) in Hi as [Li Hi].
  rewrite beyond_cases in Hb by assumption. rewrite beyond_cases by assumption. split.
  - apply (grow_box_spec n P g j HP). split; [congruence|]. intros r Hr.
    destruct (Nat.eq_dec r dir) as [-> | N]; [|rewrite O by assumption; apply Hi, Hr].
    specialize (Hi dir Hd). unfold face in E. destruct Hs as [-> | ->]; cbn [Z.eqb] in E; lia.
  - unfold face in E. destruct Hs as [-> | ->]; cbn [Z.eqb] in E; lia.
Qed.

Lemma in_destinations_reflective n D G bs dir side g P i :
  box_of_rank n D -> box_of_rank n P -> (dir < n)%nat -> 0 < g -> side = 0 \/ side = 1 ->
  nonempty P -> subbox P D -> subbox D G ->
  nth dir (lower G) 0 = nth dir (lower D) 0 - g -> nth dir (upper G) 0 = nth dir (upper D) 0 + g ->
  box_of_rank n G ->
  decomposition n D G bs ->
  in_box (grow_box P g) i -> beyond D dir side i -> alongside D dir i ->
  In i (destinations D bs dir side g P).
Proof.
  intros HD HP Hd Hg Hs NP SP SG G1 G2 HG [Hb Hc] HV HB HA.
  pose proof (patch_bounds n P D dir HP HD NP SP Hd) as PB.
  assert (nonempty D) as ND by (destruct NP as [q Hq]; exists q; apply SP, Hq).
  pose proof (fun r => patch_bounds n D G r HD HG ND SG) as DB.
  pose proof (proj1 (grow_box_spec n P g i HP) HV) as [L Hi]. rewrite beyond_cases in HB by assumption.
  assert (in_box G i) as IG.
  { apply (in_box_spec n G i HG). split; [assumption|]. intros r Hr.
    destruct (Nat.eq_dec r dir) as [-> | N].
    - specialize (Hi dir Hd). lia.
    - specialize (HA r ltac:(lia) N). specialize (DB r Hr). lia. }
  assert (~ in_box D i) as ID.
  { intros I. apply (in_box_spec n D i HD) in I as [_ I]. specialize (I dir Hd). lia. }
  destruct (Hc i IG ID) as (b & Ib & Hib).
  apply (in_destinations n); [assumption | intros b' Hb'; apply Hb, Hb' |].
  split; [assumption|]. exists b. split; [assumption|]. split; [|assumption].
  destruct (Hb b Ib) as (Rb & e & He & Le).
  pose proof (proj1 (in_box_spec n b i Rb) Hib) as [_ Hib'].
  assert (e = dir) as ->.
  { destruct (Nat.eq_dec e dir) as [-> | N]; [reflexivity|]. exfalso.
    specialize (HA e ltac:(lia) N). specialize (Hib' e He). unfold layer in Le. lia. }
  unfold selected. apply (intersects_spec n D _ HD (shift_box_rank n b dir _ Rb)).
  exists (set_nth i dir (last_cell D dir side)).
  pose proof (set_nth_replaced i dir (last_cell D dir side) ltac:(lia)) as (Lj & Ej & Oj).
  assert (last_cell D dir side = if side =? 0 then nth dir (lower D) 0 else nth dir (upper D) 0 - 1) as El by reflexivity.
  remember (last_cell D dir side) as v eqn:Ev. clear Ev.
  pose proof (Hib' dir Hd) as Hbd. pose proof (DB dir Hd) as DBd. unfold layer in Le. split.
  - apply (in_box_spec n D _ HD). split; [congruence|]. intros r Hr.
    destruct (Nat.eq_dec r dir) as [-> | N]; [rewrite Ej; destruct Hs as [-> | ->]; cbn [Z.eqb] in El; lia|].
    rewrite Oj by assumption. apply HA; [lia | assumption].
  - apply (shift_box_spec n b dir _ _ Rb Hd). split; [congruence|]. split.
    + rewrite Ej. destruct Hs as [-> | ->]; cbn [Z.eqb] in El;
        [change (GetSign 0) with 1 | change (GetSign 1) with (-1)]; lia.
    + intros r Hr N. rewrite Oj by assumption. apply Hib', Hr.
Qed.

(** The whole reflective condition on a patch *)
Lemma reflective_patch {S} (f : S -> S) n D G bs dir side g P (d : @fab S) :
  box_of_rank n D -> box_of_rank n P -> (dir < n)%nat -> 0 <= g -> side = 0 \/ side = 1 ->
  nonempty P -> subbox P D ->
  decomposition n D G bs ->
  exists d', ReflectiveBoundary f D bs dir side g P (Some d) = Some d' /\
    (forall k j, In k (destinations D bs dir side g P) -> mirror_image (face D dir side) dir k j -> d' k = f (d j)) /\
    (forall k, ~ In k (destinations D bs dir side g P) -> d' k = d k).
Proof.
  intros HD HP Hd Hg Hs NP SP Hdec. unfold ReflectiveBoundary.
  destruct (fill_patch_spec f (mirrored (face D dir side) dir)
              (fun states box => FillReflective f states box dir side) n D D G bs dir side g P d)
    as (d' & E & A & B); try assumption; try reflexivity.
  - intros r Hr. lia.
  - intros b Ib Es Ee d0. unfold FillReflective, ForEachIndex. apply fold_left_ext_in.
    intros d1 i Hi. f_equal. pose proof (proj1 (proj1 Hdec b Ib)) as Rb.
    pose proof (grow_box_rank n P g HP) as RV.
    apply (in_loop n _ i (meet_rank n _ _ RV Rb)) in Hi. apply (meet_spec n _ _ i RV Rb) in Hi as [Hi1 Hi2].
    pose proof (proj1 (grow_box_spec n P g i HP) Hi1) as [L Hi1'].
    pose proof (proj1 (in_box_spec n b i Rb) Hi2) as [_ Hi2'].
    rewrite reflect_index_mirrored by lia. f_equal.
    pose proof (selected_layer n D D G bs dir side g b HD Hd Hg Hs eq_refl eq_refl ltac:(intros r _; split; apply Z.le_refl) Hdec Ib Es) as [S0 S1].
    specialize (Hi1' dir Hd). specialize (Hi2' dir Hd).
    pose proof (patch_bounds n P D dir HP HD NP SP Hd) as PB.
    cbn [meet lower upper]. unfold face.
    destruct RV as [RV1 RV2], Rb as [Rb1 Rb2], HP as [HP1 HP2].
    destruct Hs as [-> | ->]; cbn [Z.eqb]; rewrite nth_map2 by lia.
    + rewrite grow_box_upper by lia. specialize (S0 eq_refl). lia.
    + rewrite grow_box_lower by lia. specialize (S1 eq_refl). lia.
  - intros i Hi Hb.
    pose proof (proj1 (grow_box_spec n P g i HP) Hi) as [L _].
    destruct (mirror_in_grown n P D dir side g i _ HP HD Hd Hg Hs NP SP Hi Hb (mirrored_spec (face D dir side) dir i ltac:(lia))) as [M1 M2].
    split; [assumption | left; assumption].
  - exists d'. split; [assumption|]. split; [|assumption].
    intros k j Hk Hm. rewrite A by assumption. f_equal. f_equal.
    destruct (destinations_beyond n D D G bs dir side g P k HD HP Hd Hg Hs eq_refl eq_refl ltac:(intros r _; split; apply Z.le_refl) Hdec Hk) as [I _].
    pose proof (proj1 (grow_box_spec n P g k HP) I) as [L _].
    eapply replaced_unique; [apply mirrored_spec; lia | exact Hm].
Qed.
