(** Vocabulary for C166. *)
From Coq Require Import List Reals ZArith.
From Verif Require Import CopyModel.

(** Two arrays agree: the same boxes, owners, components, ghost layers and memory, and the same values in all cells that are not ghost cells *)
Definition same_array (a b : option multifab) : Prop :=
  match a, b with
  | None, None => True
  | Some a, Some b => boxes a = boxes b /\ center a = center b /\ owners a = owners b /\ n_comp a = n_comp b /\ n_grow a = n_grow b /\ arena a = arena b /\ (forall i, valid a i = valid b i)
  | _, _ => False
  end.

(** Two levels agree in everything but ghost cells *)
Definition same_level (a b : level) : Prop :=
  level_number a = level_number b /\ time_point a = time_point b /\ cycles a = cycles b /\ box_array a = box_array b /\ mapping a = mapping b /\
  same_array (data a) (data b) /\ same_array (nodes a) (nodes b) /\ same_array (face0 a) (face0 b) /\ same_array (face1 a) (face1 b) /\ same_array (face2 a) (face2 b).
