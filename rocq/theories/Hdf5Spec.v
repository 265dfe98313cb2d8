(** What an output has to show. *)
From Coq Require Import Reals ZArith Bool List Permutation.
Import ListNotations.
From Verif Require Import Hdf5Model.
Local Open Scope R_scope.

(** All patches of a level, whoever owns them. *)
Definition patches (l : level) : list patch := concat (ranks l).
Definition cpatches (l : clevel) : list cpatch := concat (cranks l).
Definition gpatches (l : glevel) : list patch := concat (granks l).

(** The cell i lies in the patch p of the level. *)
Definition covers (l : level) (p : patch) (i : cell) : Prop := In p (patches l) /\ In i (pcells p).

(** The value of the finest level that covers a cell; levels are listed from
    fine to coarse and i is a cell of the finest one. *)
Inductive finest : list level -> cell -> nat -> R -> Prop :=
| finest_here : forall l ls p i c, covers l p i -> finest (l :: ls) i c (pdata p i c)
| finest_below : forall l ls i c v,
    (forall p, ~ covers l p i) ->
    finest ls (fst i / fst (ratio l), snd i / snd (ratio l))%Z c v ->
    finest (l :: ls) i c v.

(** No cell lies in two patches (the same patch listed twice counts as two). *)
Definition disjoint_patches (ps : list patch) : Prop :=
  forall before p between q after i, ps = before ++ p :: between ++ q :: after ->
    In i (pcells p) -> ~ In i (pcells q).

(** Refinement ratios are positive. *)
Definition positive_ratio (r : cell) : Prop := (0 < fst r)%Z /\ (0 < snd r)%Z.

Definition inside (b : box) (i : cell) : Prop :=
  (fst (lo b) <= fst i <= fst (hi b))%Z /\ (snd (lo b) <= snd i <= snd (hi b))%Z.

(** The arrays of the coarser levels contain everything below the finer ones. *)
Fixpoint nested (ls : list (box * level)) : Prop :=
  match ls with
  | (b, l) :: (((b', _) :: _) as coarser) =>
      (forall i, inside b i -> inside b' (fst i / fst (ratio l), snd i / snd (ratio l))%Z) /\ nested coarser
  | _ => True
  end.

(** The same for volume fractions with ghost cells and for states of cut cells. *)
Inductive finest_alpha : list clevel -> cell -> R -> Prop :=
| alpha_here : forall l ls p i, In p (cpatches l) -> In i (grown p) -> finest_alpha (l :: ls) i (alpha p i)
| alpha_below : forall l ls i a,
    (forall p, In p (cpatches l) -> ~ In i (grown p)) ->
    finest_alpha ls (fst i / fst (cratio l), snd i / snd (cratio l))%Z a ->
    finest_alpha (l :: ls) i a.

Inductive finest_cut : list clevel -> cell -> nat -> R -> Prop :=
| cut_here : forall l ls p i c, In p (cpatches l) -> In i (valid p) -> finest_cut (l :: ls) i c (cdata p i c)
| cut_below : forall l ls i c a v,
    (forall p, In p (cpatches l) -> ~ In i (valid p)) ->
    finest_alpha (l :: ls) i a -> 0 < a ->
    finest_cut ls (fst i / fst (cratio l), snd i / snd (cratio l))%Z c v ->
    finest_cut (l :: ls) i c v
| cut_solid : forall l ls i c a,
    (forall p, In p (cpatches l) -> ~ In i (valid p)) ->
    finest_alpha (l :: ls) i a -> a <= 0 ->
    finest_cut (l :: ls) i c 0.

(** Point x lies in cell i of a level. *)
Definition contains (l : glevel) (i : cell) (x : point) : Prop :=
  (fst (plo l) + IZR (fst i) * fst (dx l) <= fst x < fst (plo l) + (IZR (fst i) + 1) * fst (dx l)) /\
  (snd (plo l) + IZR (snd i) * snd (dx l) <= snd x < snd (plo l) + (IZR (snd i) + 1) * snd (dx l)).

(** The state at a point is the one of the finest level with a cell around it. *)
Inductive seen : list glevel -> point -> nat -> R -> Prop :=
| seen_here : forall l ls p i x c,
    In p (gpatches l) -> In i (pcells p) -> contains l i x -> seen (l :: ls) x c (pdata p i c)
| seen_below : forall l ls x c v,
    (forall p i, In p (gpatches l) -> In i (pcells p) -> ~ contains l i x) ->
    seen ls x c v -> seen (l :: ls) x c v.

(** A complete file with the given outputs in order. *)
Definition series {A} (os : list (output A)) : h5file A :=
  mkFile (Some (map (fun o => Some (slab o)) os)) (Some (map (fun o => Some (time_point o)) os))
         (Some (map (fun o => Some (cycle o)) os)).

(** Entries of a data set which may be missing. *)
Definition entry_at {B} (d : option (dataset B)) (k : nat) : option B :=
  match d with
  | Some l => match nth_error l k with Some (Some b) => Some b | _ => None end
  | None => None
  end.

Definition entries {B} (d : option (dataset B)) : nat :=
  match d with Some l => length l | None => 0%nat end.

(** A patch with cut cells without its volume fractions. *)
Definition as_patch (p : cpatch) : patch := mkPatch (valid p) (cdata p).

Fixpoint cut_nested (ls : list (box * clevel)) : Prop :=
  match ls with
  | (b, l) :: (((b', _) :: _) as coarser) =>
      (forall i, inside b i -> inside b' (fst i / fst (cratio l), snd i / snd (cratio l))%Z) /\ cut_nested coarser
  | _ => True
  end.

(** Volume fractions in ghost cells agree with the other patches of the level. *)
Definition consistent_alpha (l : clevel) : Prop :=
  forall p q i, In p (cpatches l) -> In q (cpatches l) -> In i (grown p) -> In i (grown q) -> alpha p i = alpha q i.

(** The coordinates which were configured for a tube: every tube has its own part of the list. *)
Definition configured_probes (n_tubes : nat) (xs : list point) (tube : nat) : list point :=
  let n := Nat.div (length xs) n_tubes in firstn n (skipn (tube * n) xs).
