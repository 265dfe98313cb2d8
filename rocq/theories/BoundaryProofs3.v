(** Lemmas about the grown domain, periodic directions and corners. *)
From Coq Require Import ZArith List Bool Lia.
From Verif Require Import ArrayModel ArraySpec ArrayProofs BoxProofs StableDtProofs BoundaryModel BoundarySpec
  BoundaryProofs BoundaryProofs2.
Import ListNotations.
Open Scope Z_scope.

Lemma nth_map2_bool (f : bool -> Z -> Z) (a : list bool) (b : list Z) r :
  length a = length b -> (r < length b)%nat -> nth r (map2 f a b) 0 = f (nth r a false) (nth r b 0).
Proof.
  intros L H. unfold map2.
  rewrite (nth_indep _ 0 (f false 0)) by (rewrite map_length, combine_length; lia).
  change (f false 0) with ((fun p => f (fst p) (snd p)) (false, 0)). rewrite map_nth, combine_nth by assumption. reflexivity.
Qed.

Lemma grown_domain n D per g : box_of_rank n D -> length per = n ->
  box_of_rank n (growNonPeriodicDomain D per g) /\
  forall r, (r < n)%nat ->
    nth r (lower (growNonPeriodicDomain D per g)) 0 = (if nth r per false then nth r (lower D) 0 else nth r (lower D) 0 - g) /\
    nth r (upper (growNonPeriodicDomain D per g)) 0 = (if nth r per false then nth r (upper D) 0 else nth r (upper D) 0 + g).
Proof.
  intros [D1 D2] L. unfold growNonPeriodicDomain; cbn [lower upper]. split.
  - split; cbn [lower upper]; rewrite map2_len; congruence.
  - intros r Hr. rewrite !nth_map2_bool by lia. split; reflexivity.
Qed.

Lemma grown_domain_sub n D per g : box_of_rank n D -> length per = n -> 0 <= g -> subbox D (growNonPeriodicDomain D per g).
Proof.
  intros HD L Hg i Hi. destruct (grown_domain n D per g HD L) as [RG G].
  apply (in_box_spec n _ i RG). apply (in_box_spec n D i HD) in Hi as [Li Hi]. split; [assumption|].
  intros r Hr. destruct (G r Hr) as [-> ->]. specialize (Hi r Hr). destruct (nth r per false); lia.
Qed.

(** In a periodic direction nothing is selected. *)
Lemma periodic_no_destination n D G bs dir side g P :
  box_of_rank n D -> box_of_rank n P -> (dir < n)%nat -> 0 <= g -> side = 0 \/ side = 1 ->
  nth dir (lower G) 0 = nth dir (lower D) 0 -> nth dir (upper G) 0 = nth dir (upper D) 0 ->
  decomposition n D G bs -> destinations D bs dir side g P = [].
Proof.
  intros HD HP Hd Hg Hs E1 E2 [Hb Hc]. unfold destinations.
  assert (forall b, In b bs -> selected D dir side g b = false) as A.
  { intros b Ib. destruct (Hb b Ib) as (Rb & e & He & L).
    destruct (selected D dir side g b) eqn:Es; [|reflexivity]. exfalso. unfold selected in Es.
    apply (intersects_spec n D _ HD (shift_box_rank n b dir _ Rb)) in Es as (i & I1 & I2).
    apply (in_box_spec n D i HD) in I1 as [L1 I1]. apply (shift_box_spec n b dir _ i Rb Hd) in I2 as (L2 & I2 & I3).
    unfold layer in L. destruct (Nat.eq_dec e dir) as [-> | N]; [lia|].
    specialize (I1 e He). specialize (I3 e He N). lia. }
  clear Hb Hc. induction bs as [|b bs IH]; [reflexivity|]. cbn [flat_map].
  rewrite (A b (or_introl eq_refl)). apply IH. intros b' Hb'. apply A. right. assumption.
Qed.

Lemma reflective_periodic {S} (f : S -> S) n D G bs dir side g P (d : @fab S) :
  box_of_rank n D -> box_of_rank n P -> (dir < n)%nat -> 0 <= g -> side = 0 \/ side = 1 ->
  nth dir (lower G) 0 = nth dir (lower D) 0 -> nth dir (upper G) 0 = nth dir (upper D) 0 ->
  decomposition n D G bs -> ReflectiveBoundary f D bs dir side g P (Some d) = Some d.
Proof.
  intros HD HP Hd Hg Hs E1 E2 Hdec. unfold ReflectiveBoundary.
  rewrite (fill_patch_list f (mirrored (face D dir side) dir)).
  - rewrite (periodic_no_destination n D G); try assumption. reflexivity.
  - intros b Ib Es. exfalso. destruct Hdec as [Hb Hc]. destruct (Hb b Ib) as (Rb & e & He & L).
    unfold selected in Es.
    apply (intersects_spec n D _ HD (shift_box_rank n b dir _ Rb)) in Es as (i & I1 & I2).
    apply (in_box_spec n D i HD) in I1 as [L1 I1]. apply (shift_box_spec n b dir _ i Rb Hd) in I2 as (L2 & I2 & I3).
    unfold layer in L. destruct (Nat.eq_dec e dir) as [-> | N]; [lia|].
    specialize (I1 e He). specialize (I3 e He N). lia.
Qed.

Lemma mirror_in_domain n D dir side g i j P :
  box_of_rank n D -> box_of_rank n P -> (dir < n)%nat -> 0 <= g -> side = 0 \/ side = 1 ->
  nonempty P -> subbox P D ->
  g <= nth dir (upper D) 0 - nth dir (lower D) 0 ->
  in_box (grow_box P g) i -> beyond D dir side i -> alongside D dir i -> mirror_image (face D dir side) dir i j ->
  in_box D j.
Proof.
  intros HD HP Hd Hg Hs NP SP W Hi HB HA (L & E & O).
  pose proof (patch_bounds n P D dir HP HD NP SP Hd) as PB.
  pose proof (proj1 (grow_box_spec n P g i HP) Hi) as [Li Hi'].
  apply (in_box_spec n D j HD). split; [congruence|]. intros r Hr.
  destruct (Nat.eq_dec r dir) as [-> | N]; [|rewrite O by assumption; apply HA; [lia | assumption]].
  specialize (Hi' dir Hd). rewrite beyond_cases in HB by assumption. rewrite E. unfold face.
  destruct Hs as [-> | ->]; cbn [Z.eqb]; lia.
Qed.

(** A cell in a box which is the layer of the direction and reaches into the domain otherwise *)
Lemma selected_cell n D G bs dir side g P b k :
  box_of_rank n D -> box_of_rank n P -> box_of_rank n G -> (dir < n)%nat -> 0 < g -> side = 0 \/ side = 1 ->
  nonempty D ->
  nth dir (lower G) 0 = nth dir (lower D) 0 - g -> nth dir (upper G) 0 = nth dir (upper D) 0 + g ->
  decomposition n D G bs ->
  In b bs -> in_box b k -> in_box (grow_box P g) k -> beyond D dir side k -> layer D G dir b ->
  (exists q, in_box D q /\ forall r, (r < n)%nat -> r <> dir -> nth r (lower b) 0 <= nth r q 0 < nth r (upper b) 0) ->
  In k (destinations D bs dir side g P).
Proof.
  intros HD HP HG Hd Hg Hs ND G1 G2 [Hb Hc] Ib Hk HV HB Le (q & Hq & Oq).
  destruct (Hb b Ib) as (Rb & _).
  apply (in_destinations n); [assumption | intros b' Hb'; apply Hb, Hb' |].
  split; [assumption|]. exists b. split; [assumption|]. split; [|assumption].
  unfold selected. apply (intersects_spec n D _ HD (shift_box_rank n b dir _ Rb)).
  pose proof (proj1 (in_box_spec n b k Rb) Hk) as [Lk Hk'].
  pose proof (proj1 (in_box_spec n D q HD) Hq) as [Lq Hq'].
  rewrite beyond_cases in HB by assumption.
  exists (set_nth q dir (last_cell D dir side)).
  pose proof (set_nth_replaced q dir (last_cell D dir side) ltac:(lia)) as (Lj & Ej & Oj).
  assert (last_cell D dir side = if side =? 0 then nth dir (lower D) 0 else nth dir (upper D) 0 - 1) as El by reflexivity.
  remember (last_cell D dir side) as v eqn:Ev. clear Ev.
  pose proof (Hk' dir Hd) as Hbd. pose proof (Hq' dir Hd) as Hqd. unfold layer in Le. split.
  - apply (in_box_spec n D _ HD). split; [congruence|]. intros r Hr.
    destruct (Nat.eq_dec r dir) as [-> | N]; [rewrite Ej; destruct Hs as [-> | ->]; cbn [Z.eqb] in El; lia|].
    rewrite Oj by assumption. apply Hq', Hr.
  - apply (shift_box_spec n b dir _ _ Rb Hd). split; [congruence|]. split.
    + rewrite Ej. destruct Hs as [-> | ->]; cbn [Z.eqb] in El;
        [change (GetSign 0) with 1 | change (GetSign 1) with (-1)]; lia.
    + intros r Hr N. rewrite Oj by assumption. apply Oq; assumption.
Qed.

(** A cell in no layer of the direction is not filled. *)
Lemma not_in_layer n D G bs dir side g P k :
  box_of_rank n D -> box_of_rank n P -> (dir < n)%nat -> 0 <= g -> side = 0 \/ side = 1 ->
  decomposition n D G bs ->
  (forall b, In b bs -> in_box b k -> ~ layer D G dir b) ->
  ~ In k (destinations D bs dir side g P).
Proof.
  intros HD HP Hd Hg Hs [Hb Hc] HN Hi.
  apply (in_destinations n) in Hi; [|assumption|intros b Ib; apply Hb, Ib].
  destruct Hi as (_ & b & Ib & Es & Hk). apply (HN b Ib Hk).
  destruct (Hb b Ib) as (Rb & e & He & L). destruct (Nat.eq_dec e dir) as [-> | N]; [assumption|]. exfalso.
  unfold selected in Es. apply (intersects_spec n D _ HD (shift_box_rank n b dir _ Rb)) in Es as (i & I1 & I2).
  apply (in_box_spec n D i HD) in I1 as [L1 I1]. apply (shift_box_spec n b dir _ i Rb Hd) in I2 as (L2 & I2 & I3).
  specialize (I1 e He). specialize (I3 e He N). unfold layer in L. lia.
Qed.
