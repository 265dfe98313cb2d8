(** Vocabulary for C162. *)
From Coq Require Import List Reals Arith.
From Verif Require Import IgniteModel TubeIgniteModel.
Import ListNotations.

(** The calls of a history that concern tube [k]: those on levels which this tube has; level, time and equivalence ratio in this tube *)
Definition own_calls (k : nat) (calls : list (list tube * nat)) : list (nat * R * R) :=
  flat_map (fun c => match nth_error (fst c) k with
                     | Some t => if (snd c <? levels t)%nat then [(snd c, current t (snd c), ratio t (snd c))] else []
                     | None => []
                     end) calls.

(** Whether tube [k] was ignited in each of the calls that concern it, from the tubes after the calls *)
Definition own_ignitions (k : nat) (calls : list (list tube * nat)) (outs : list (list tube)) : list bool :=
  flat_map (fun c => match nth_error (snd c) k with
                     | Some t => if (snd (fst c) <? levels t)%nat then [ignited t] else []
                     | None => []
                     end) (combine calls outs).
