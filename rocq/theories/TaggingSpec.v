(** Specification vocabulary for the tagging methods. *)
From Coq Require Import List ZArith Reals.
From Verif Require Import ArrayModel ArraySpec.
Import ListNotations.
Local Open Scope Z_scope.

(** A cell is tagged for refinement. *)
Definition tagged (d : index -> Z) (i : index) : Prop := d i <> 0.

(** All tags are non-negative chars. *)
Definition valid_tags (d : index -> Z) : Prop := forall i, 0 <= d i <= 127.

(** Cell [c] is at most [w] cells away from [s] in every direction. *)
Definition within (w : Z) (s c : index) : Prop :=
  length c = length s /\ forall r, (r < length s)%nat -> Z.abs (nth r c 0 - nth r s 0) <= w.

(** The same, but on the upper side only less than [w] cells away. *)
Definition within_half_open (w : Z) (s c : index) : Prop :=
  length c = length s /\ forall r, (r < length s)%nat -> nth r s 0 - w <= nth r c 0 < nth r s 0 + w.

(** The relative difference |a - b| / (|a| + |b|) of two numbers which are not both zero exceeds the
    tolerance; two zeros do not differ. *)
Definition steep (tol a b : R) : Prop := (Rabs (a - b) > tol * (Rabs a + Rabs b))%R.

(** The next cell in a direction. *)
Definition neighbour (dir : nat) (k : Z) (i j : index) : Prop :=
  length j = length i /\ (dir < length i)%nat /\ nth dir j 0 = nth dir i 0 + k /\
  forall r, r <> dir -> nth r j 0 = nth r i 0.

(** Both neighbours of the cell in a direction have data, and one of them differs too much. *)
Definition steep_in {S} (conds : list ((S -> R) * R)) (statebox : IndexBox) (states : index -> S) (dir : nat) (i : index) : Prop :=
  exists l r, neighbour dir (-1) i l /\ neighbour dir 1 i r /\ in_box statebox l /\ in_box statebox r /\
  exists p tol, In (p, tol) conds /\
    (steep tol (p (states i)) (p (states l)) \/ steep tol (p (states i)) (p (states r))).

(** The same where cells without volume do not count. *)
Definition steep_volumes_in {S} (conds : list ((S -> R) * R)) (statebox : IndexBox) (states : index -> S)
    (volumes : index -> R) (dir : nat) (i : index) : Prop :=
  exists l r, neighbour dir (-1) i l /\ neighbour dir 1 i r /\ in_box statebox l /\ in_box statebox r /\
  (0 < volumes l)%R /\ (0 < volumes i)%R /\ (0 < volumes r)%R /\
  exists p tol, In (p, tol) conds /\
    (steep tol (p (states i)) (p (states l)) \/ steep tol (p (states i)) (p (states r))).

(** Tolerances are not negative. *)
Definition tolerances_ok {S} (conds : list ((S -> R) * R)) : Prop := forall p tol, In (p, tol) conds -> (0 <= tol)%R.

(** The index with zeros appended up to a rank. *)
Definition padded (rank : nat) (i t : index) : Prop :=
  length t = rank /\ (length i <= rank)%nat /\ firstn (length i) t = i /\ forall r, (length i <= r)%nat -> nth r t 0 = 0.

(** No condition compares two zeros or hits its tolerance exactly between two cells of the row. *)
Definition clear_cut {S} (conds : list ((S -> R) * R)) (a b : S) : Prop :=
  forall p tol, In (p, tol) conds ->
    (0 < Rabs (p a) + Rabs (p b))%R /\ (Rabs (p a - p b) <> tol * (Rabs (p a) + Rabs (p b)))%R.

(** The difference reaches the tolerance; two zeros always do. *)
Definition reaches (tol a b : R) : Prop := (Rabs (a - b) >= tol * (Rabs a + Rabs b))%R.
