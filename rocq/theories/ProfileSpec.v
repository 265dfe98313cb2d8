(** Vocabulary for C146. *)
From Coq Require Import List ZArith Reals Bool Sorted.
From Verif Require Import ProfileModel.
Import ListNotations.
Local Open Scope R_scope.

(** A profile: positions in increasing order. *)
Definition ordered (l : list (R * prim)) : Prop := StronglySorted (fun a b => fst a < fst b) l.
(** The parts of a profile left of, inside of, and right of a cell [xlo, xhi). *)
Inductive split (xlo xhi : R) (l before within after : list (R * prim)) : Prop :=
| split_intro : l = before ++ within ++ after ->
    Forall (fun s => fst s < xlo) before -> Forall (fun s => xlo <= fst s < xhi) within -> Forall (fun s => xhi <= fst s) after ->
    split xlo xhi l before within after.
Fixpoint sum (l : list R) : R := match l with [] => 0 | x :: r => x + sum r end.
(** v is the mean of the values of some samples, in every quantity. *)
Definition is_average (l : list (R * prim)) (v : prim) : Prop :=
  l <> [] /\
  density v * INR (length l) = sum (map (fun s => density (snd s)) l) /\
  velocity v * INR (length l) = sum (map (fun s => velocity (snd s)) l) /\
  pressure v * INR (length l) = sum (map (fun s => pressure (snd s)) l).
