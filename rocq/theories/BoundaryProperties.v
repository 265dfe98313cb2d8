(** C53 (reflective boundary) and C71 (transmissive and constant boundary). *)
From Coq Require Import ZArith List Bool Lia.
From Verif Require Import ArrayModel ArraySpec ArrayProofs BoxProofs StableDtProofs BoundaryModel BoundarySpec
  BoundaryProofs BoundaryProofs2 BoundaryProofs3.
Import ListNotations.
Open Scope Z_scope.

(** ** C53: one box.  For every type of states and every reflection [f], every view box and box to fill:
    every cell of the box gets the reflection of the value its mirror image at the face next to the domain
    had before, whatever the order of the loop; no other cell is changed; nothing outside of the view is
    accessed if the mirror images lie in the view. *)
Theorem C53_fill :
  forall (S : Type) (f : S -> S) (n : nat) (view fill : IndexBox) (dir : nat) (side : Z) (d : index -> S),
    box_of_rank n view -> box_of_rank n fill -> (dir < n)%nat -> side = 0 \/ side = 1 ->
    subbox fill view ->
    let fc := if side =? 0 then nth dir (upper fill) 0 else nth dir (lower fill) 0 in
    (forall i j, in_box fill i -> mirror_image fc dir i j -> in_box view j) ->
    exists d', FillReflective f view fill dir side (Some d) = Some d' /\
      (forall i j, in_box fill i -> mirror_image fc dir i j -> d' i = f (d j)) /\
      (forall i, ~ in_box fill i -> d' i = d i).
Proof. intros S f n view fill dir side d Hv Hf Hd _ Hs fc Hm. apply (fill_reflective f n view fill dir side d); assumption. Qed.
Print Assumptions C53_fill.

(** ** C53: one patch.  For every domain, patch in it, ghost width, direction and side: the call succeeds;
    every ghost cell next to the domain gets the reflection of its mirror image at the domain boundary;
    the mirror image lies in the domain if the ghost width does not exceed the domain width; a cell that is
    not beyond the boundary keeps its value; and any other ghost cell either keeps its value or gets the
    reflection of its mirror image. *)
Theorem C53_patch :
  forall (S : Type) (f : S -> S) (n : nat) (domain patch : IndexBox) (periodic : list bool)
         (boundaries : list IndexBox) (dir : nat) (side ngrow : Z) (d : index -> S),
    box_of_rank n domain -> box_of_rank n patch -> length periodic = n -> (dir < n)%nat -> 0 < ngrow ->
    side = 0 \/ side = 1 -> nth dir periodic false = false ->
    nonempty patch -> subbox patch domain ->
    decomposition n domain (growNonPeriodicDomain domain periodic ngrow) boundaries ->
    exists d', ReflectiveBoundary f domain boundaries dir side ngrow patch (Some d) = Some d' /\
      (forall k j, in_box (grow_box patch ngrow) k -> beyond domain dir side k -> alongside domain dir k ->
         mirror_image (face domain dir side) dir k j ->
         d' k = f (d j) /\
         (ngrow <= nth dir (upper domain) 0 - nth dir (lower domain) 0 -> in_box domain j)) /\
      (forall k, ~ beyond domain dir side k -> d' k = d k) /\
      (forall k j, mirror_image (face domain dir side) dir k j -> d' k = d k \/ d' k = f (d j)) /\
      (forall k, in_box domain k -> d' k = d k).
Proof.
  intros S f n D P per bs dir side g d HD HP Lp Hd Hg Hs Np NP SP Hdec.
  destruct (grown_domain n D per g HD Lp) as [RG HG]. pose proof (grown_domain_sub n D per g HD Lp ltac:(lia)) as SG.
  destruct (HG dir Hd) as [G1 G2]. rewrite Np in G1, G2.
  destruct (reflective_patch f n D _ bs dir side g P d HD HP Hd ltac:(lia) Hs NP SP Hdec) as (d' & E & A & B).
  assert (forall k, ~ beyond D dir side k -> d' k = d k) as C.
  { intros k Hk. apply B. intros J. apply Hk.
    eapply (destinations_beyond n D D _ bs dir side g P k); try eassumption; try reflexivity; try lia. }
  exists d'. split; [assumption|]. split; [|split; [assumption|split]].
  - intros k j HV HB HA HM. split.
    + apply A; [|assumption]. eapply (in_destinations_reflective n D _ bs dir side g P k); eassumption.
    + intros W. apply (mirror_in_domain n D dir side g k j P); try assumption. lia.
  - intros k j HM. destruct (in_dec (list_eq_dec Z.eq_dec) k (destinations D bs dir side g P)) as [J | J].
    + right. apply A; assumption.
    + left. apply B, J.
  - intros k Hk. apply C. rewrite beyond_cases by assumption.
    apply (in_box_spec n D k HD) in Hk as [_ Hk]. specialize (Hk dir Hd). lia.
Qed.
Print Assumptions C53_patch.

(** ** C53: in a periodic direction the condition changes nothing. *)
Theorem C53_periodic :
  forall (S : Type) (f : S -> S) (n : nat) (domain patch : IndexBox) (periodic : list bool)
         (boundaries : list IndexBox) (dir : nat) (side ngrow : Z) (d : index -> S),
    box_of_rank n domain -> box_of_rank n patch -> length periodic = n -> (dir < n)%nat -> 0 <= ngrow ->
    side = 0 \/ side = 1 -> nth dir periodic false = true ->
    decomposition n domain (growNonPeriodicDomain domain periodic ngrow) boundaries ->
    ReflectiveBoundary f domain boundaries dir side ngrow patch (Some d) = Some d.
Proof.
  intros S f n D P per bs dir side g d HD HP Lp Hd Hg Hs Np Hdec.
  destruct (grown_domain n D per g HD Lp) as [RG HG]. destruct (HG dir Hd) as [G1 G2]. rewrite Np in G1, G2.
  eapply reflective_periodic; eassumption.
Qed.
Print Assumptions C53_periodic.

(** ** C53: corners.  Two reflective conditions in the directions [dx] and [dy], applied in this order to a
    patch.  A corner ghost cell that lies in a layer of direction [dy] reaching along the domain gets the
    value of its double mirror image, reflected in both directions. *)
Theorem C53_corner :
  forall (S : Type) (fx fy : S -> S) (n : nat) (domain patch : IndexBox) (periodic : list bool)
         (boundaries : list IndexBox) (dx dy : nat) (sx sy ngrow : Z) (d : index -> S) (k j q : index),
    box_of_rank n domain -> box_of_rank n patch -> length periodic = n -> (dx < n)%nat -> (dy < n)%nat -> dx <> dy ->
    0 < ngrow <= nth dy (upper domain) 0 - nth dy (lower domain) 0 ->
    sx = 0 \/ sx = 1 -> sy = 0 \/ sy = 1 ->
    nth dx periodic false = false -> nth dy periodic false = false ->
    nonempty patch -> subbox patch domain ->
    decomposition n domain (growNonPeriodicDomain domain periodic ngrow) boundaries ->
    in_box (grow_box patch ngrow) k -> beyond domain dx sx k -> beyond domain dy sy k ->
    (forall r, (r < n)%nat -> r <> dx -> r <> dy -> nth r (lower domain) 0 <= nth r k 0 < nth r (upper domain) 0) ->
    (exists b, In b boundaries /\ in_box b k /\ layer domain (growNonPeriodicDomain domain periodic ngrow) dy b /\
       exists q, in_box domain q /\
         forall r, (r < n)%nat -> r <> dy -> nth r (lower b) 0 <= nth r q 0 < nth r (upper b) 0) ->
    mirror_image (face domain dy sy) dy k j -> mirror_image (face domain dx sx) dx j q ->
    exists d', BoundarySet [ReflectiveBoundary fx domain boundaries dx sx ngrow patch;
                            ReflectiveBoundary fy domain boundaries dy sy ngrow patch] (Some d) = Some d' /\
      d' k = fy (fx (d q)).
Proof.
  intros S fx fy n D P per bs dx dy sx sy g d k j q HD HP Lp Hx Hy Nxy [Hg W] Hsx Hsy Npx Npy NP SP Hdec HV Bx By HO
    (b & Ib & Hk & Lb & Hq) Mj Mq.
  destruct (grown_domain n D per g HD Lp) as [RG HG]. pose proof (grown_domain_sub n D per g HD Lp ltac:(lia)) as SG.
  destruct (HG dx Hx) as [G1 G2]. rewrite Npx in G1, G2. destruct (HG dy Hy) as [G3 G4]. rewrite Npy in G3, G4.
  destruct (reflective_patch fx n D _ bs dx sx g P d HD HP Hx ltac:(lia) Hsx NP SP Hdec) as (d1 & E1 & A1 & _).
  destruct (reflective_patch fy n D _ bs dy sy g P d1 HD HP Hy ltac:(lia) Hsy NP SP Hdec) as (d2 & E2 & A2 & _).
  exists d2. split; [exact (eq_trans (f_equal (ReflectiveBoundary fy D bs dy sy g P) E1) E2)|].
  rewrite (A2 k j); [|eapply (selected_cell n D _ bs dy sy g P b k); try eassumption;
                      destruct NP as [p Hp]; exists p; apply SP, Hp | assumption].
  f_equal. apply A1; [|assumption].
  destruct (mirror_in_grown n P D dy sy g k j HP HD Hy ltac:(lia) Hsy NP SP HV By Mj) as [Jv Jb].
  destruct Mj as (Lj & Ej & Oj). pose proof (proj1 (grow_box_spec n P g k HP) HV) as [Lk HV'].
  eapply (in_destinations_reflective n D _ bs dx sx g P j); try eassumption.
  - rewrite beyond_cases by assumption. rewrite beyond_cases in Bx by assumption. rewrite Oj by assumption. exact Bx.
  - intros r Hr Nr. destruct (Nat.eq_dec r dy) as [-> | Ny]; [|rewrite Oj by assumption; apply HO; [lia | assumption | assumption]].
    rewrite Ej. rewrite beyond_cases in By by assumption. specialize (HV' dy Hy).
    pose proof (patch_bounds n P D dy HP HD NP SP Hy). unfold face. destruct Hsy as [-> | ->]; cbn [Z.eqb]; lia.
Qed.
Print Assumptions C53_corner.

(** ** C53: in the other order the corner cell depends on what the ghost cell next to it held before the
    boundary conditions were applied. *)
Theorem C53_corner_wrong_order :
  forall (S : Type) (fx fy : S -> S) (n : nat) (domain patch : IndexBox) (periodic : list bool)
         (boundaries : list IndexBox) (dx dy : nat) (sx sy ngrow : Z) (d : index -> S) (k j : index),
    box_of_rank n domain -> box_of_rank n patch -> length periodic = n -> (dx < n)%nat -> (dy < n)%nat -> dx <> dy ->
    0 < ngrow ->
    sx = 0 \/ sx = 1 -> sy = 0 \/ sy = 1 ->
    nth dx periodic false = false -> nth dy periodic false = false ->
    nonempty patch -> subbox patch domain ->
    decomposition n domain (growNonPeriodicDomain domain periodic ngrow) boundaries ->
    in_box (grow_box patch ngrow) k -> beyond domain dx sx k -> beyond domain dy sy k ->
    (forall b, In b boundaries -> in_box b k -> ~ layer domain (growNonPeriodicDomain domain periodic ngrow) dx b) ->
    (exists b, In b boundaries /\ in_box b k /\ layer domain (growNonPeriodicDomain domain periodic ngrow) dy b /\
       exists q, in_box domain q /\
         forall r, (r < n)%nat -> r <> dy -> nth r (lower b) 0 <= nth r q 0 < nth r (upper b) 0) ->
    mirror_image (face domain dy sy) dy k j ->
    exists d', BoundarySet [ReflectiveBoundary fy domain boundaries dy sy ngrow patch;
                            ReflectiveBoundary fx domain boundaries dx sx ngrow patch] (Some d) = Some d' /\
      d' k = fy (d j) /\ beyond domain dx sx j.
Proof.
  intros S fx fy n D P per bs dx dy sx sy g d k j HD HP Lp Hx Hy Nxy Hg Hsx Hsy Npx Npy NP SP Hdec HV Bx By HN
    (b & Ib & Hk & Lb & Hq) Mj.
  destruct (grown_domain n D per g HD Lp) as [RG HG]. pose proof (grown_domain_sub n D per g HD Lp ltac:(lia)) as SG.
  destruct (HG dx Hx) as [G1 G2]. rewrite Npx in G1, G2. destruct (HG dy Hy) as [G3 G4]. rewrite Npy in G3, G4.
  destruct (reflective_patch fy n D _ bs dy sy g P d HD HP Hy ltac:(lia) Hsy NP SP Hdec) as (d1 & E1 & A1 & _).
  destruct (reflective_patch fx n D _ bs dx sx g P d1 HD HP Hx ltac:(lia) Hsx NP SP Hdec) as (d2 & E2 & _ & B2).
  exists d2. split; [exact (eq_trans (f_equal (ReflectiveBoundary fx D bs dx sx g P) E1) E2)|]. split.
  - rewrite B2 by (eapply (not_in_layer n D _ bs dx sx g P k); try eassumption; lia).
    apply A1; [|assumption]. eapply (selected_cell n D _ bs dy sy g P b k); try eassumption.
    destruct NP as [p Hp]; exists p; apply SP, Hp.
  - destruct Mj as (_ & _ & Oj). rewrite beyond_cases in * by assumption. rewrite Oj by assumption. exact Bx.
Qed.
Print Assumptions C53_corner_wrong_order.

(** A domain of 4 x 3 cells with two ghost cells; AMReX's decomposition (the layers in y over the whole
    width, then the layers in x along the domain); the patch is the left half.  The corner cell (-2, -1) is
    the double mirror image of (1, 0). *)
Example C53_example :
  let domain := mkBox [0; 0] [4; 3] in
  let patch := mkBox [0; 0] [2; 3] in
  let G := growNonPeriodicDomain domain [false; false] 2 in
  let boundaries := [mkBox [-2; -2] [6; 0]; mkBox [-2; 3] [6; 5]; mkBox [-2; 0] [0; 3]; mkBox [4; 0] [6; 3]] in
  decomposition 2 domain G boundaries /\ nonempty patch /\ subbox patch domain /\
  in_box (grow_box patch 2) [-2; -1] /\ beyond domain 0 0 [-2; -1] /\ beyond domain 1 0 [-2; -1] /\
  mirror_image (face domain 1 0) 1 [-2; -1] [-2; 0] /\ mirror_image (face domain 0 0) 0 [-2; 0] [1; 0] /\
  (forall b, In b boundaries -> in_box b [-2; -1] -> b = mkBox [-2; -2] [6; 0] /\ ~ layer domain G 0 b /\ layer domain G 1 b) /\
  match BoundarySet [ReflectiveBoundary (fun v => 10 * v) domain boundaries 0 0 2 patch;
                     ReflectiveBoundary (fun v => v + 1) domain boundaries 1 0 2 patch]
          (Some (fun i => nth 0 i 0 + 100 * nth 1 i 0)) with
  | Some d => d [-2; -1] = 11 /\ d [-1; 2] = 2000 /\ d [1; 2] = 201 /\ d [5; 0] = 5
  | None => False
  end.
Proof.
  cbv zeta.
  assert (forall a b c e i, in_box (mkBox [a; b] [c; e]) i <-> exists x y, i = [x; y] /\ a <= x < c /\ b <= y < e) as IB.
  { intros a b c e i. rewrite (in_box_spec 2) by (split; reflexivity). cbn [lower upper]. split.
    - intros [L H]. destruct i as [|x [|y [|]]]; try discriminate. exists x, y. split; [reflexivity|].
      split; [apply (H 0%nat); lia | apply (H 1%nat); lia].
    - intros (x & y & -> & H1 & H2). split; [reflexivity|]. intros [|[|r]] Hr; cbn [nth]; lia. }
  change (growNonPeriodicDomain (mkBox [0; 0] [4; 3]) [false; false] 2) with (mkBox [-2; -2] [6; 5]).
  split.
  { split.
    - intros b [<- | [<- | [<- | [<- | []]]]]; (split; [split; reflexivity|]).
      + exists 1%nat. split; [lia|]. left. split; reflexivity.
      + exists 1%nat. split; [lia|]. right. split; reflexivity.
      + exists 0%nat. split; [lia|]. left. split; reflexivity.
      + exists 0%nat. split; [lia|]. right. split; reflexivity.
    - intros i Hi N. apply IB in Hi as (x & y & -> & Hx & Hy).
      assert (~ (0 <= x < 4 /\ 0 <= y < 3)) as N' by (intros C; apply N, IB; exists x, y; intuition lia).
      destruct (Z_lt_le_dec y 0); [exists (mkBox [-2; -2] [6; 0]); split; [cbn; tauto|]; apply IB; exists x, y; intuition lia|].
      destruct (Z_lt_le_dec y 3); [|exists (mkBox [-2; 3] [6; 5]); split; [cbn; tauto|]; apply IB; exists x, y; intuition lia].
      destruct (Z_lt_le_dec x 0); [exists (mkBox [-2; 0] [0; 3]); split; [cbn; tauto|]; apply IB; exists x, y; intuition lia|].
      exists (mkBox [4; 0] [6; 3]). split; [cbn; tauto|]. apply IB. exists x, y. intuition lia. }
  split; [exists [0; 0]; apply IB; exists 0, 0; intuition lia|].
  split; [intros i Hi; apply IB in Hi as (x & y & -> & H1 & H2); apply IB; exists x, y; intuition lia|].
  change (grow_box (mkBox [0; 0] [2; 3]) 2) with (mkBox [-2; -2] [4; 5]).
  split; [apply IB; exists (-2), (-1); intuition lia|].
  split; [vm_compute; reflexivity|]. split; [vm_compute; reflexivity|].
  split; [split; [reflexivity|]; split; [reflexivity|]; intros [|[|[|r]]] N; cbn [nth]; try reflexivity; contradiction|].
  split; [split; [reflexivity|]; split; [reflexivity|]; intros [|[|[|r]]] N; cbn [nth]; try reflexivity; contradiction|].
  split; [|vm_compute; tauto].
  intros b [<- | [<- | [<- | [<- | []]]]] Hb; apply IB in Hb as (x & y & E & H1 & H2); injection E as <- <-; try lia.
  split; [reflexivity|]. unfold layer. cbn [lower upper nth]. lia.
Qed.

(** ** C71: the transmissive condition.  Every ghost cell beyond the boundary (corners included) gets the
    value which the last cell of the same row before the boundary had; all other cells keep their value. *)
Theorem C71_transmissive :
  forall (S : Type) (n : nat) (domain patch : IndexBox) (periodic : list bool)
         (boundaries : list IndexBox) (dir : nat) (side ngrow : Z) (d : index -> S),
    box_of_rank n domain -> box_of_rank n patch -> length periodic = n -> (dir < n)%nat -> 0 < ngrow ->
    side = 0 \/ side = 1 -> nth dir periodic false = false ->
    nonempty patch -> subbox patch domain ->
    full_layers n dir domain (growNonPeriodicDomain domain periodic ngrow) boundaries ->
    exists d', TransmissiveBoundary false domain boundaries dir side ngrow patch (Some d) = Some d' /\
      (forall k j, in_box (grow_box patch ngrow) k -> in_box (growNonPeriodicDomain domain periodic ngrow) k ->
         beyond domain dir side k -> replaced dir (last_cell domain dir side) k j -> d' k = d j) /\
      (forall k, ~ beyond domain dir side k -> d' k = d k) /\
      (forall k, ~ in_box (grow_box patch ngrow) k -> d' k = d k).
Proof.
  intros S n D P per bs dir side g d HD HP Lp Hd Hg Hs Np NP SP HL.
  destruct (grown_domain n D per g HD Lp) as [RG HG]. pose proof (grown_domain_sub n D per g HD Lp ltac:(lia)) as SG.
  destruct (HG dir Hd) as [G1 G2]. rewrite Np in G1, G2.
  destruct (transmissive_patch n D _ bs dir side g P d HD HP RG Hd Hg Hs NP SP SG HL) as (d' & E & A & B & C).
  exists d'. split; [assumption|]. split; [|split].
  - intros k j HV HGk HB HR. apply A; [|assumption].
    eapply (in_destinations_full n D _ bs dir side g P k); eassumption.
  - intros k HB. apply B. intros J. apply HB, C, J.
  - intros k HB. apply B. intros J. apply HB, C, J.
Qed.
Print Assumptions C71_transmissive.

(** ** C71: the constant condition stores the given state in every ghost cell beyond the boundary and
    nowhere else. *)
Theorem C71_constant :
  forall (S : Type) (state : S) (n : nat) (domain patch : IndexBox) (periodic : list bool)
         (boundaries : list IndexBox) (dir : nat) (side ngrow : Z) (d : index -> S),
    box_of_rank n domain -> box_of_rank n patch -> length periodic = n -> (dir < n)%nat -> 0 < ngrow ->
    side = 0 \/ side = 1 -> nth dir periodic false = false ->
    nonempty patch -> subbox patch domain ->
    full_layers n dir domain (growNonPeriodicDomain domain periodic ngrow) boundaries ->
    exists d', ConstantBoundary state false domain boundaries dir side ngrow patch (Some d) = Some d' /\
      (forall k, in_box (grow_box patch ngrow) k -> in_box (growNonPeriodicDomain domain periodic ngrow) k ->
         beyond domain dir side k -> d' k = state) /\
      (forall k, ~ beyond domain dir side k -> d' k = d k) /\
      (forall k, ~ in_box (grow_box patch ngrow) k -> d' k = d k).
Proof.
  intros S s n D P per bs dir side g d HD HP Lp Hd Hg Hs Np NP SP HL.
  destruct (grown_domain n D per g HD Lp) as [RG HG]. pose proof (grown_domain_sub n D per g HD Lp ltac:(lia)) as SG.
  destruct (HG dir Hd) as [G1 G2]. rewrite Np in G1, G2.
  destruct (constant_patch n D _ bs dir side g P d HD HP RG Hd Hg Hs NP SP SG HL s) as (d' & E & A & B & C).
  exists d'. split; [assumption|]. split; [|split].
  - intros k HV HGk HB. apply A. eapply (in_destinations_full n D _ bs dir side g P k); eassumption.
  - intros k HB. apply B. intros J. apply HB, C, J.
  - intros k HB. apply B. intros J. apply HB, C, J.
Qed.
Print Assumptions C71_constant.

(** ** C71: the transmissive condition on a single view with a ghost layer of the given width. *)
Theorem C71_view :
  forall (S : Type) (n : nat) (view : IndexBox) (dir : nat) (width side : Z) (d : index -> S),
    box_of_rank n view -> (dir < n)%nat -> side = 0 \/ side = 1 ->
    0 <= width < nth dir (upper view) 0 - nth dir (lower view) 0 ->
    exists d', FillTransmissiveView view dir width side (Some d) = Some d' /\
      (side = 0 -> forall k j, in_box view k ->
         (nth dir k 0 < nth dir (lower view) 0 + width -> replaced dir (nth dir (lower view) 0 + width) k j -> d' k = d j) /\
         (nth dir (lower view) 0 + width <= nth dir k 0 -> d' k = d k)) /\
      (side = 1 -> forall k j, in_box view k ->
         (nth dir (upper view) 0 - width <= nth dir k 0 -> replaced dir (nth dir (upper view) 0 - width - 1) k j -> d' k = d j) /\
         (nth dir k 0 < nth dir (upper view) 0 - width -> d' k = d k)).
Proof. intros. apply (fill_transmissive_view n); assumption. Qed.
Print Assumptions C71_view.

(** The same domain and patch; the layers in x over the whole grown width.  The corner cell (-2, -1) gets
    the value of (0, -1). *)
Example C71_example :
  let domain := mkBox [0; 0] [4; 3] in
  let patch := mkBox [0; 0] [2; 3] in
  let G := growNonPeriodicDomain domain [false; false] 2 in
  let boundaries := [mkBox [-2; -2] [0; 5]; mkBox [4; -2] [6; 5]] in
  full_layers 2 0 domain G boundaries /\
  in_box (grow_box patch 2) [-2; -1] /\ in_box G [-2; -1] /\ beyond domain 0 0 [-2; -1] /\
  replaced 0 (last_cell domain 0 0) [-2; -1] [0; -1] /\
  match TransmissiveBoundary false domain boundaries 0 0 2 patch (Some (fun i => nth 0 i 0 + 100 * nth 1 i 0)) with
  | Some d => d [-2; -1] = -100 /\ d [1; 2] = 201
  | None => False
  end /\
  match ConstantBoundary 7 false domain boundaries 0 0 2 patch (Some (fun i => nth 0 i 0 + 100 * nth 1 i 0)) with
  | Some d => d [-2; -1] = 7 /\ d [1; 2] = 201
  | None => False
  end.
Proof.
  cbv zeta.
  assert (forall a b c e i, in_box (mkBox [a; b] [c; e]) i <-> exists x y, i = [x; y] /\ a <= x < c /\ b <= y < e) as IB.
  { intros a b c e i. rewrite (in_box_spec 2) by (split; reflexivity). cbn [lower upper]. split.
    - intros [L H]. destruct i as [|x [|y [|]]]; try discriminate. exists x, y. split; [reflexivity|].
      split; [apply (H 0%nat); lia | apply (H 1%nat); lia].
    - intros (x & y & -> & H1 & H2). split; [reflexivity|]. intros [|[|r]] Hr; cbn [nth]; lia. }
  change (growNonPeriodicDomain (mkBox [0; 0] [4; 3]) [false; false] 2) with (mkBox [-2; -2] [6; 5]).
  change (grow_box (mkBox [0; 0] [2; 3]) 2) with (mkBox [-2; -2] [4; 5]).
  split.
  { split.
    - intros b [<- | [<- | []]]; (split; [split; reflexivity|]).
      + split; [left; split; reflexivity|]. intros [|[|r]] Hr N; cbn [lower upper nth]; (lia || (split; reflexivity)).
      + split; [right; split; reflexivity|]. intros [|[|r]] Hr N; cbn [lower upper nth]; (lia || (split; reflexivity)).
    - intros i Hi N. apply IB in Hi as (x & y & -> & Hx & Hy). cbn [lower upper nth] in N.
      destruct N as [N | N]; [exists (mkBox [-2; -2] [0; 5]) | exists (mkBox [4; -2] [6; 5])];
        (split; [cbn; tauto|]; apply IB; exists x, y; intuition lia). }
  split; [apply IB; exists (-2), (-1); intuition lia|].
  split; [apply IB; exists (-2), (-1); intuition lia|].
  split; [vm_compute; reflexivity|].
  split; [split; [reflexivity|]; split; [reflexivity|]; intros [|[|[|r]]] N; cbn [nth]; try reflexivity; contradiction|].
  split; vm_compute; tauto.
Qed.
