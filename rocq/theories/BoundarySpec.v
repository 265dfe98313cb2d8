(** Vocabulary of the boundary condition properties. *)
From Coq Require Import ZArith List Lia.
From Verif Require Import ArrayModel ArraySpec.
Import ListNotations.
Open Scope Z_scope.

(** [j] is [i] with the coordinate [dir] replaced by [v]. *)
Definition replaced (dir : nat) (v : Z) (i j : list Z) : Prop :=
  length j = length i /\ nth dir j 0 = v /\ forall r, r <> dir -> nth r j 0 = nth r i 0.

(** [j] is the mirror image of the cell [i] at the face between the cells [face - 1] and [face] of the
    direction [dir]: cell [face] is the image of [face - 1], [face + 1] that of [face - 2], ... *)
Definition mirror_image (face : Z) (dir : nat) (i j : list Z) : Prop :=
  replaced dir (2 * face - 1 - nth dir i 0) i j.

(** The face of the box in a direction; side 0 is the lower one, side 1 the upper one. *)
Definition face (b : IndexBox) (dir : nat) (side : Z) : Z :=
  if side =? 0 then nth dir (lower b) 0 else nth dir (upper b) 0.

(** The cell lies beyond the face. *)
Definition beyond (b : IndexBox) (dir : nat) (side : Z) (i : list Z) : Prop :=
  if side =? 0 then nth dir i 0 < face b dir side else face b dir side <= nth dir i 0.

(** The last cell of the domain before the face. *)
Definition last_cell (b : IndexBox) (dir : nat) (side : Z) : Z :=
  if side =? 0 then nth dir (lower b) 0 else nth dir (upper b) 0 - 1.

(** All coordinates but [dir] are those of a cell of the box. *)
Definition alongside (b : IndexBox) (dir : nat) (i : list Z) : Prop :=
  forall r, (r < length i)%nat -> r <> dir -> nth r (lower b) 0 <= nth r i 0 < nth r (upper b) 0.

(** In direction [e] the box [b] is exactly the layer of the bigger box [outer] below or above [dom]. *)
Definition layer (dom outer : IndexBox) (e : nat) (b : IndexBox) : Prop :=
  (nth e (lower b) 0 = nth e (lower outer) 0 /\ nth e (upper b) 0 = nth e (lower dom) 0) \/
  (nth e (lower b) 0 = nth e (upper dom) 0 /\ nth e (upper b) 0 = nth e (upper outer) 0).

(** A decomposition of the cells of [outer] outside of [dom] into boxes, each of which is a layer in some
    direction.  (AMReX's [complementIn] cuts off one layer after the other.) *)
Definition decomposition (n : nat) (dom outer : IndexBox) (bs : list IndexBox) : Prop :=
  (forall b, In b bs -> box_of_rank n b /\ exists e, (e < n)%nat /\ layer dom outer e b) /\
  (forall i, in_box outer i -> ~ in_box dom i -> exists b, In b bs /\ in_box b i).

(** The part of a box inside of another one *)
Definition subbox (a b : IndexBox) : Prop := forall i, in_box a i -> in_box b i.

(** The layers below and above [dom] in direction [dir] over the whole width of [outer]. *)
Definition full_layers (n : nat) (dir : nat) (dom outer : IndexBox) (bs : list IndexBox) : Prop :=
  (forall b, In b bs -> box_of_rank n b /\ layer dom outer dir b /\
     forall r, (r < n)%nat -> r <> dir ->
       nth r (lower b) 0 = nth r (lower outer) 0 /\ nth r (upper b) 0 = nth r (upper outer) 0) /\
  (forall i, in_box outer i -> nth dir i 0 < nth dir (lower dom) 0 \/ nth dir (upper dom) 0 <= nth dir i 0 ->
     exists b, In b bs /\ in_box b i).
