(** Vocabulary for conservation on refined hierarchies. *)
From Coq Require Import List ZArith Reals.
From Verif Require Import ArrayModel RefluxModel.
Import ListNotations.
Local Open Scope Z_scope.

(** Neighbours of a cell in direction d. *)
Definition right_of (c : index) (d : nat) : index := Shift c d 1.
Definition left_of (c : index) (d : nat) : index := Shift c d (-1).

(** Cells of [cells] without left (right) neighbour in [other]. *)
Definition without_left (cells other : list index) (d : nat) : list index :=
  filter (fun c => negb (mem (left_of c d) other)) cells.
Definition without_right (cells other : list index) (d : nat) : list index :=
  filter (fun c => negb (mem (right_of c d) other)) cells.

(** The conserved quantity on the composite grid: every level contributes the cells that are not covered by
    the next finer level, weighted with their volume. *)
Fixpoint total (fines : list refinement) (cells : list index) (dx : list R) (us : list (index -> R)) : R :=
  match us with
  | [] => 0%R
  | u :: us' =>
      match fines with
      | [] => (volume dx * sum (map u cells))%R
      | f :: fines' =>
          (volume dx * sum (map u (filter (fun c => negb (mem c (covered f))) cells)) +
           total fines' (refined f) (refined_dx f dx) us')%R
      end
  end.

(** The amount that passes a face of a cell of this level during the step: if the cell is refined, what
    passes the faces of its outermost children, otherwise dt times face area times flux of all split steps in
    this direction.  [low] selects the left face of the cell. *)
Definition steps_amount (dx : list R) (steps : list split_step) (d : nat) (low : bool) (c : index) : R :=
  sum (map (fun s => if Nat.eqb (st_dir s) d
                     then (st_dt s * (volume dx / nth d dx 0) * st_flux s (if low then c else right_of c d))%R
                     else 0%R) steps).

Fixpoint amount (fines : list refinement) (dx : list R) (p : plan) (d : nat) (low : bool) (c : index) : R :=
  let '(Plan subcycles steps) := p in
  match fines with
  | [] => steps_amount dx steps d low c
  | f :: fines' =>
      if mem c (covered f)
      then sum (map (fun sub =>
                  sum (map (fun x => amount fines' (refined_dx f dx) sub d low x)
                           (filter (fun x => Z.eqb (nth d x 0)
                                      (if low then nth d (ref_ratio f) 0 * nth d c 0
                                       else nth d (ref_ratio f) 0 * (nth d c 0 + 1) - 1))
                                   (children (ref_ratio f) c)))) subcycles)
      else steps_amount dx steps d low c
  end.

(** What enters minus what leaves through the outer faces of [cells] in all directions. *)
Definition inflow (rank : nat) (fines : list refinement) (cells : list index) (dx : list R) (p : plan) : R :=
  sum (map (fun d =>
    (sum (map (amount fines dx p d true) (without_left cells cells d)) -
     sum (map (amount fines dx p d false) (without_right cells cells d)))%R) (seq 0 rank)).

(** Shape of a hierarchy: cells are indices with [rank] entries and appear once, patches are disjoint and
    part of the next coarser level, ratios are positive. *)
Fixpoint well_formed (rank : nat) (fines : list refinement) (cells : list index) : Prop :=
  NoDup cells /\ (forall c, In c cells -> length c = rank) /\
  match fines with
  | [] => True
  | f :: fines' =>
      length (ref_ratio f) = rank /\ Forall (fun r => 0 < r) (ref_ratio f) /\
      NoDup (covered f) /\ (forall c, In c (covered f) -> In c cells) /\
      well_formed rank fines' (refined f)
  end.

(** Proper nesting: the neighbours of a refined cell belong to the same level as the cell, unless they are
    outside the domain.  [domain] are the cells of the domain on this level. *)
Fixpoint nested (rank : nat) (fines : list refinement) (cells : list index) (domain : index -> Prop) : Prop :=
  match fines with
  | [] => True
  | f :: fines' =>
      (forall c d, In c (covered f) -> (d < rank)%nat ->
         (In (left_of c d) cells \/ ~ domain (left_of c d)) /\ (In (right_of c d) cells \/ ~ domain (right_of c d))) /\
      nested rank fines' (refined f) (fun x => exists c, domain c /\ In x (children (ref_ratio f) c))
  end.

(** All split steps are in one of the [rank] directions, on every level. *)
Fixpoint plan_ok (rank : nat) (p : plan) : Prop :=
  let '(Plan subcycles steps) := p in
  Forall (fun s => (st_dir s < rank)%nat) steps /\
  (fix all (l : list plan) := match l with [] => True | q :: r => plan_ok rank q /\ all r end) subcycles.

(** Every level that has a finer level advances the finer level at least once. *)
Fixpoint advances_all (fines : list refinement) (p : plan) : Prop :=
  let '(Plan subcycles _) := p in
  match fines with
  | [] => True
  | _ :: fines' => subcycles <> [] /\ Forall (advances_all fines') subcycles
  end.
