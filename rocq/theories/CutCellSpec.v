(** Vocabulary for C39 and C64-C67. *)
From Coq Require Import Reals ZArith List.
From Verif Require Import CutCellModel.
Import ListNotations.
Local Open Scope R_scope.

(** The geometry of a cut cell with volume fraction alpha between faces of fractions bL and bR: the part of the
    larger face which is not continued by the smaller one ends at the embedded boundary, whose centroid lies
    within the cell; the volume below it and the volume between the common part of both faces fit into the cell.
    Without a jump of the face fractions the boundary is parallel to the direction. *)
Definition cut_cell (bL bR alpha c : R) : Prop :=
  0 <= bL /\ 0 <= bR /\ - (1 / 2) <= c <= 1 / 2 /\ 0 <= alpha /\
  (bL = bR -> alpha = bL) /\
  (bR < bL -> 0 < alpha /\ bR + (bL - bR) * (1 / 2 + c) <= alpha) /\
  (bL < bR -> 0 < alpha /\ bL + (bR - bL) * (1 / 2 - c) <= alpha).

(** Every cell of the line is such a cell. *)
Definition geometry (g : line) : Prop :=
  forall j, cut_cell (beta g j) (beta g (j + 1)%Z) (volume g j) (center g j).

(** h lo + h (lo + 1) + ... with n terms. *)
Fixpoint sum_from (lo : Z) (n : nat) (h : Z -> R) : R :=
  match n with O => 0 | S k => h lo + sum_from (lo + 1) k h end.

(** lo <= x <= hi for every x of the list. *)
Definition all_between (lo hi : R) (l : list R) : Prop := Forall (fun x => lo <= x <= hi) l.

(** Total of a quantity held by the cells lo, ..., lo + n - 1. *)
Definition content (volume value : Z -> R) (lo : Z) (n : nat) : R := sum_from lo n (fun j => volume j * value j).
