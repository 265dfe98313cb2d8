(** Vocabulary for C161. *)
From Coq Require Import List ZArith.
From Verif Require Import FixedModel.
Local Open Scope Z_scope.

(** A cell is between the first and the last cell of a box on each axis *)
Definition inside (rank : nat) (b : box) (i : cell) : Prop := forall d, (d < rank)%nat -> smallEnd b d <= i d <= bigEnd b d.

(** The cell of the next coarser level that a cell is a part of, if cells are split into [ratio] parts on each axis *)
Definition parent (ratio i : cell) : cell := fun d => i d / ratio d.

(** The cell of the coarsest level that a cell of level [level] is a part of *)
Fixpoint ancestor (ratio : cell) (level : nat) (i : cell) : cell :=
  match level with O => i | S level => ancestor ratio level (parent ratio i) end.

(** A cell of a patch is a cell of one of the tiles of this patch *)
Definition visited (rank : nat) (tiles : list (nat * box)) (patch : nat) (i : cell) : Prop :=
  exists tile, In (patch, tile) tiles /\ inside rank tile i.
