(** Vocabulary for C150 and C151. *)
From Coq Require Import String List Arith.
From Verif Require Import DebugModel.
Import ListNotations.

(** Number of occurrences of a name *)
Definition occurrences (l : list string) (n : string) : nat := count_occ string_dec l n.
(** names becomes names' : a name that occurs once stays as it is, and the k-th occurrence of another one, counted from
    zero, gets _k appended. *)
Definition made_unique (names names' : list string) : Prop :=
  length names' = length names /\
  forall i n, nth_error names i = Some n ->
    nth_error names' i = Some (if (occurrences names n =? 1)%nat then n else (n ++ "_" ++ decimal (occurrences (firstn i names) n))%string).
(** A field that is saved: data, names, geometry and the first component; what is kept of it are as many components as
    names. *)
Definition kept {L D : Type} (h : @hier L D) (names : list string) (first : nat) : list D := firstn (length names) (skipn first (h_comps h)).
(** Any number of calls of SaveData one after the other *)
Fixpoint save_all {L D G : Type} (s : @snapshot L D G) (calls : list (@hier L D * list string * G * nat)) : option (@snapshot L D G) :=
  match calls with
  | [] => Some s
  | (h, names, g, first) :: r => match SaveData s h names g first with Some s' => save_all s' r | None => None end
  end.
