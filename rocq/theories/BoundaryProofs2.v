(** Lemmas about copying and constant boundary conditions and about corners. *)
From Coq Require Import ZArith List Bool Lia.
From Verif Require Import ArrayModel ArraySpec ArrayProofs BoxProofs StableDtProofs BoundaryModel BoundarySpec BoundaryProofs.
Import ListNotations.
Open Scope Z_scope.

(** The box AMReX grows in all directions but [dir] (TransmissiveBoundary.cpp:66). *)
Lemma full_layers_decomposition n dir D D' G bs :
  (dir < n)%nat -> box_of_rank n D' -> box_of_rank n G ->
  nth dir (lower D') 0 = nth dir (lower D) 0 -> nth dir (upper D') 0 = nth dir (upper D) 0 ->
  (forall r, (r < n)%nat -> r <> dir ->
     nth r (lower D') 0 = nth r (lower G) 0 /\ nth r (upper D') 0 = nth r (upper G) 0) ->
  full_layers n dir D G bs -> decomposition n D' G bs.
Proof.
  intros Hd HD' HG E1 E2 Ho [A B]. split.
  - intros b Hb. destruct (A b Hb) as (Rb & L & _). split; [assumption|]. exists dir. split; [assumption|].
    unfold layer in *. rewrite E1, E2. assumption.
  - intros i Hi N. apply B; [assumption|].
    destruct (Z_lt_le_dec (nth dir i 0) (nth dir (lower D) 0)) as [L1 | L1]; [left; assumption|].
    destruct (Z_lt_le_dec (nth dir i 0) (nth dir (upper D) 0)) as [L2 | L2]; [|right; assumption].
    exfalso. apply N. apply (in_box_spec n D' i HD').
    apply (in_box_spec n G i HG) in Hi as [L Hi]. split; [assumption|]. intros r Hr.
    destruct (Nat.eq_dec r dir) as [-> | Nr]; [lia|]. destruct (Ho r Hr Nr) as [-> ->]. apply Hi, Hr.
Qed.

Lemma in_destinations_full n D G bs dir side g P i :
  box_of_rank n D -> box_of_rank n P -> box_of_rank n G -> (dir < n)%nat -> 0 < g -> side = 0 \/ side = 1 ->
  nonempty P -> subbox P D -> subbox D G ->
  nth dir (lower G) 0 = nth dir (lower D) 0 - g -> nth dir (upper G) 0 = nth dir (upper D) 0 + g ->
  full_layers n dir D G bs ->
  in_box (grow_box P g) i -> in_box G i -> beyond D dir side i ->
  In i (destinations D bs dir side g P).
Proof.
  intros HD HP HG Hd Hg Hs NP SP SG G1 G2 [Hb Hc] HV IG HB.
  assert (nonempty D) as ND by (destruct NP as [q Hq]; exists q; apply SP, Hq).
  pose proof (fun r => patch_bounds n D G r HD HG ND SG) as DB.
  rewrite beyond_cases in HB by assumption.
  destruct (Hc i IG) as (b & Ib & Hib); [lia|].
  apply (in_destinations n); [assumption | intros b' Hb'; apply Hb, Hb' |].
  split; [assumption|]. exists b. split; [assumption|]. split; [|assumption].
  destruct (Hb b Ib) as (Rb & Le & Ob).
  pose proof (proj1 (in_box_spec n b i Rb) Hib) as [L Hib'].
  destruct ND as [q Hq]. pose proof (proj1 (in_box_spec n D q HD) Hq) as [Lq Hq'].
  unfold selected. apply (intersects_spec n D _ HD (shift_box_rank n b dir _ Rb)).
  exists (set_nth q dir (last_cell D dir side)).
  pose proof (set_nth_replaced q dir (last_cell D dir side) ltac:(lia)) as (Lj & Ej & Oj).
  assert (last_cell D dir side = if side =? 0 then nth dir (lower D) 0 else nth dir (upper D) 0 - 1) as El by reflexivity.
  remember (last_cell D dir side) as v eqn:Ev. clear Ev.
  pose proof (Hib' dir Hd) as Hbd. pose proof (DB dir Hd) as DBd. unfold layer in Le. split.
  - apply (in_box_spec n D _ HD). split; [congruence|]. intros r Hr.
    destruct (Nat.eq_dec r dir) as [-> | N]; [rewrite Ej; destruct Hs as [-> | ->]; cbn [Z.eqb] in El; lia|].
    rewrite Oj by assumption. apply Hq', Hr.
  - apply (shift_box_spec n b dir _ _ Rb Hd). split; [congruence|]. split.
    + rewrite Ej. destruct Hs as [-> | ->]; cbn [Z.eqb] in El;
        [change (GetSign 0) with 1 | change (GetSign 1) with (-1)]; lia.
    + intros r Hr N. rewrite Oj by assumption. destruct (Ob r Hr N) as [-> ->].
      specialize (Hq' r Hr). specialize (DB r Hr). lia.
Qed.

Section Copy.
Context {S : Type}.
Variables (n : nat) (D G : IndexBox) (bs : list IndexBox) (dir : nat) (side g : Z) (P : IndexBox) (d : @fab S).
Hypothesis HD : box_of_rank n D.
Hypothesis HP : box_of_rank n P.
Hypothesis HG : box_of_rank n G.
Hypothesis Hd : (dir < n)%nat.
Hypothesis Hg : 0 < g.
Hypothesis Hs : side = 0 \/ side = 1.
Hypothesis NP : nonempty P.
Hypothesis SP : subbox P D.
Hypothesis SG : subbox D G.
Hypothesis HL : full_layers n dir D G bs.

(** [D] grown in the other directions *)
Let D' := mkBox (set_nth (lower G) dir (nth dir (lower D) 0)) (set_nth (upper G) dir (nth dir (upper D) 0)).

Lemma D'_facts : box_of_rank n D' /\ nth dir (lower D') 0 = nth dir (lower D) 0 /\
  nth dir (upper D') 0 = nth dir (upper D) 0 /\
  (forall r, (r < n)%nat -> r <> dir ->
     nth r (lower D') 0 = nth r (lower G) 0 /\ nth r (upper D') 0 = nth r (upper G) 0) /\
  (forall r, (r < n)%nat -> nth r (lower D') 0 <= nth r (lower D) 0 /\ nth r (upper D) 0 <= nth r (upper D') 0).
Proof.
  pose proof HG as [G1 G2].
  destruct (set_nth_replaced (lower G) dir (nth dir (lower D) 0) ltac:(lia)) as (L1 & E1 & O1).
  destruct (set_nth_replaced (upper G) dir (nth dir (upper D) 0) ltac:(lia)) as (L2 & E2 & O2).
  subst D'. cbn [lower upper]. split; [split; cbn [lower upper]; congruence|].
  split; [assumption|]. split; [assumption|].
  split; [intros r Hr N; split; [apply O1 | apply O2]; assumption|].
  assert (nonempty D) as ND by (destruct NP as [q Hq]; exists q; apply SP, Hq).
  intros r Hr. pose proof (patch_bounds n D G r HD HG ND SG Hr).
  destruct (Nat.eq_dec r dir) as [-> | N]; [rewrite E1, E2; lia|]. rewrite O1, O2 by assumption. lia.
Qed.

Lemma copy_patch (f : S -> S) (src : index -> index) fill :
  (forall b, In b bs -> selected D dir side g b = true -> isEmpty (meet (grow_box P g) b) = false -> forall d,
     fill (grow_box P g) (meet (grow_box P g) b) d =
     fold_left (fun d i => transfer f (grow_box P g) i (src i) d)
       (loop_indices (lower (meet (grow_box P g) b)) (upper (meet (grow_box P g) b))) d) ->
  (forall i, in_box (grow_box P g) i -> beyond D dir side i ->
     in_box (grow_box P g) (src i) /\ (~ beyond D dir side (src i) \/ forall s s', f s = f s')) ->
  exists d', FillPatch fill D bs dir side g P (Some d) = Some d' /\
    (forall k, In k (destinations D bs dir side g P) -> d' k = f (d (src k))) /\
    (forall k, ~ In k (destinations D bs dir side g P) -> d' k = d k) /\
    (forall k, In k (destinations D bs dir side g P) -> in_box (grow_box P g) k /\ beyond D dir side k).
Proof.
  intros Hf Hsrc. destruct D'_facts as (RD' & E1 & E2 & Ho & Hr).
  pose proof (full_layers_decomposition n dir D D' G bs Hd RD' HG E1 E2 Ho HL) as Hdec.
  destruct (fill_patch_spec f src fill n D D' G bs dir side g P d) as (d' & E & A & B); try assumption; try lia.
  exists d'. split; [assumption|]. split; [assumption|]. split; [assumption|].
  intros k Hk. apply (destinations_beyond n D D' G bs dir side g P k); try assumption; lia.
Qed.

Lemma transmissive_source i : in_box (grow_box P g) i -> beyond D dir side i ->
  in_box (grow_box P g) (MapToSrc D i dir side) /\ ~ beyond D dir side (MapToSrc D i dir side) /\
  replaced dir (last_cell D dir side) i (MapToSrc D i dir side).
Proof.
  intros Hi HB. pose proof (patch_bounds n P D dir HP HD NP SP Hd) as PB.
  pose proof (proj1 (grow_box_spec n P g i HP) Hi) as [L Hi'].
  assert (replaced dir (last_cell D dir side) i (MapToSrc D i dir side)) as R.
  { unfold MapToSrc, nthZ, last_cell. destruct Hs as [-> | ->]; cbn [Z.eqb Pos.eqb].
    - rewrite Z.add_0_r. apply set_nth_replaced. lia.
    - rewrite Z.add_0_l. apply set_nth_replaced. lia. }
  split; [|split; [|assumption]]; destruct R as (Lj & Ej & Oj).
  - apply (grow_box_spec n P g _ HP). split; [congruence|]. intros r Hr.
    destruct (Nat.eq_dec r dir) as [-> | N]; [|rewrite Oj by assumption; apply Hi', Hr].
    rewrite Ej. specialize (Hi' dir Hd). rewrite beyond_cases in HB by assumption.
    unfold last_cell. destruct Hs as [-> | ->]; cbn [Z.eqb]; lia.
  - rewrite beyond_cases by assumption. rewrite Ej. unfold last_cell. destruct Hs as [-> | ->]; cbn [Z.eqb]; lia.
Qed.

Lemma transmissive_patch :
  exists d', TransmissiveBoundary false D bs dir side g P (Some d) = Some d' /\
    (forall k j, In k (destinations D bs dir side g P) -> replaced dir (last_cell D dir side) k j -> d' k = d j) /\
    (forall k, ~ In k (destinations D bs dir side g P) -> d' k = d k) /\
    (forall k, In k (destinations D bs dir side g P) -> in_box (grow_box P g) k /\ beyond D dir side k).
Proof.
  destruct (copy_patch (fun s => s) (fun i => MapToSrc D i dir side)
              (fun states box => FillTransmissive D states box dir side)) as (d' & E & A & B & C).
  - intros b _ _ _ d0. reflexivity.
  - intros i Hi HB. destruct (transmissive_source i Hi HB) as (T1 & T2 & _). split; [assumption | left; assumption].
  - exists d'. split; [exact E|]. split; [|split; assumption].
    intros k j Hk Hj. rewrite A by assumption. f_equal. destruct (C k Hk) as [C1 C2].
    destruct (transmissive_source k C1 C2) as (_ & _ & R). eapply replaced_unique; eassumption.
Qed.

Lemma constant_patch (s : S) :
  exists d', ConstantBoundary s false D bs dir side g P (Some d) = Some d' /\
    (forall k, In k (destinations D bs dir side g P) -> d' k = s) /\
    (forall k, ~ In k (destinations D bs dir side g P) -> d' k = d k) /\
    (forall k, In k (destinations D bs dir side g P) -> in_box (grow_box P g) k /\ beyond D dir side k).
Proof.
  destruct (copy_patch (fun _ => s) (fun i => i) (fun states box => FillConstant s states box)) as (d' & E & A & B & C).
  - intros b _ _ _ d0. unfold FillConstant, ForEachIndex. apply fold_left_ext_in.
    intros [d1|] i _; cbn [transfer]; [|reflexivity]. rewrite andb_diag. reflexivity.
  - intros i Hi _. split; [assumption | right; reflexivity].
  - exists d'. split; [exact E|]. split; [assumption | split; assumption].
Qed.
End Copy.

Lemma fill_transmissive_view {S} n V dir w side (d : @fab S) :
  box_of_rank n V -> (dir < n)%nat -> side = 0 \/ side = 1 ->
  0 <= w < nth dir (upper V) 0 - nth dir (lower V) 0 ->
  exists d', FillTransmissiveView V dir w side (Some d) = Some d' /\
    (side = 0 -> forall k j, in_box V k ->
       (nth dir k 0 < nth dir (lower V) 0 + w -> replaced dir (nth dir (lower V) 0 + w) k j -> d' k = d j) /\
       (nth dir (lower V) 0 + w <= nth dir k 0 -> d' k = d k)) /\
    (side = 1 -> forall k j, in_box V k ->
       (nth dir (upper V) 0 - w <= nth dir k 0 -> replaced dir (nth dir (upper V) 0 - w - 1) k j -> d' k = d j) /\
       (nth dir k 0 < nth dir (upper V) 0 - w -> d' k = d k)).
Proof.
  intros HV Hd Hs Hw. unfold FillTransmissiveView, ForEachIndex, nthZ.
  pose proof HV as [V1 V2].
  destruct (set_nth_replaced (upper V) dir (nth dir (lower V) 0 + w) ltac:(lia)) as (L1 & E1 & O1).
  destruct (set_nth_replaced (lower V) dir (nth dir (upper V) 0 - w) ltac:(lia)) as (L2 & E2 & O2).
  set (F := if side =? 0 then mkBox (lower V) (set_nth (upper V) dir (nth dir (lower V) 0 + w))
            else mkBox (set_nth (lower V) dir (nth dir (upper V) 0 - w)) (upper V)).
  assert (box_of_rank n F) as RF by (subst F; destruct (side =? 0); split; cbn [lower upper]; congruence).
  assert (forall i, in_box F i <-> in_box V i /\ (side = 0 -> nth dir i 0 < nth dir (lower V) 0 + w) /\
                                   (side = 1 -> nth dir (upper V) 0 - w <= nth dir i 0)) as IF.
  { intros i. rewrite (in_box_spec n F i RF), (in_box_spec n V i HV). subst F.
    destruct Hs as [-> | ->]; cbn [Z.eqb lower upper]; split.
    - intros [L H]. split; [split; [assumption|]|].
      + intros r Hr. specialize (H r Hr). destruct (Nat.eq_dec r dir) as [-> | N]; [lia|]. rewrite O1 in H by assumption. lia.
      + split; [intros _; specialize (H dir Hd); lia | discriminate].
    - intros ([L H] & H0 & _). split; [assumption|]. intros r Hr. specialize (H r Hr).
      destruct (Nat.eq_dec r dir) as [-> | N]; [specialize (H0 eq_refl); lia|]. rewrite O1 by assumption. lia.
    - intros [L H]. split; [split; [assumption|]|].
      + intros r Hr. specialize (H r Hr). destruct (Nat.eq_dec r dir) as [-> | N]; [lia|]. rewrite O2 in H by assumption. lia.
      + split; [discriminate | intros _; specialize (H dir Hd); lia].
    - intros ([L H] & _ & H1). split; [assumption|]. intros r Hr. specialize (H r Hr).
      destruct (Nat.eq_dec r dir) as [-> | N]; [specialize (H1 eq_refl); lia|]. rewrite O2 by assumption. lia. }
  assert (forall i, length i = n -> replaced dir (if side =? 0 then nth dir (lower V) 0 + w else nth dir (upper V) 0 - w - 1)
            i (TransmissiveIndex V i dir w side)) as RI.
  { intros i L. unfold TransmissiveIndex, nthZ. destruct (side =? 0); apply set_nth_replaced; lia. }
  destruct (transfer_all (fun s : S => s) V (fun i => TransmissiveIndex V i dir w side)
              (loop_indices (lower F) (upper F)) d) as (d' & E & A).
  - intros i Hi. apply (in_loop n F i RF), IF in Hi as (HiV & _).
    split; apply (contains_true n); try assumption.
    pose proof (proj1 (in_box_spec n V i HV) HiV) as [L H]. destruct (RI i L) as (Lj & Ej & Oj).
    apply (in_box_spec n V _ HV). split; [congruence|]. intros r Hr.
    destruct (Nat.eq_dec r dir) as [-> | N]; [rewrite Ej; destruct (side =? 0); lia | rewrite Oj by assumption; apply H, Hr].
  - intros i Hi. left. intros Hj. apply (in_loop n F i RF), IF in Hi as (HiV & _).
    pose proof (proj1 (in_box_spec n V i HV) HiV) as [L H]. destruct (RI i L) as (Lj & Ej & Oj).
    apply (in_loop n F _ RF), IF in Hj as (_ & H0 & H1).
    destruct Hs as [Es | Es]; rewrite Es in Ej; cbn [Z.eqb] in Ej; rewrite Es in H0, H1; [specialize (H0 eq_refl) | specialize (H1 eq_refl)];
      rewrite Es in *; lia.
  - exists d'. split; [exact E|].
    assert (forall k j, in_box F k -> replaced dir (if side =? 0 then nth dir (lower V) 0 + w else nth dir (upper V) 0 - w - 1) k j ->
              d' k = d j) as A1.
    { intros k j Hk Hj. rewrite (proj1 (A k)) by (apply (in_loop n F k RF), Hk). f_equal.
      pose proof (proj1 (in_box_spec n F k RF) Hk) as [L _]. eapply replaced_unique; [apply RI, L | exact Hj]. }
    assert (forall k, ~ in_box F k -> d' k = d k) as A2.
    { intros k Hk. apply A. intros J. apply Hk, (in_loop n F k RF), J. }
    split; intros -> k j Hk; cbn [Z.eqb] in A1.
    + split; [intros Hb; apply A1, IF; split; [assumption|]; split; intros; try assumption; discriminate|].
      intros Hb. apply A2. intros J. apply IF in J as (_ & J & _). specialize (J eq_refl). lia.
    + split; [intros Hb; apply A1, IF; split; [assumption|]; split; intros; try assumption; discriminate|].
      intros Hb. apply A2. intros J. apply IF in J as (_ & _ & J). specialize (J eq_refl). lia.
Qed.
