(** Ignition of several tubes.
    Sources: src/AMReX/multi_block/MultiBlockIgniteDetonation.cpp, include/fub/AMReX/multi_block/MultiBlockIgniteDetonation.hpp;
    the ignition of one tube is the one of IgniteModel.v (src/AMReX/IgniteDetonation.cpp). *)
From Coq Require Import List Reals Bool Arith.
From Verif Require Import IgniteModel.
Import ListNotations.
Local Open Scope R_scope.

(** An object of IgniteDetonation: its options and the time points of the last ignition of each level, IgniteDetonation.hpp:109-112 (the equation is left out) *)
Definition source : Type := ignite_options * list R.

(** What IgniteDetonation reads of a tube, IgniteDetonation.cpp:136-219: number of levels, time point and equivalence ratio on each level;
    and whether a call has ignited the mixture (the temperatures it writes are left out) *)
Record tube := { levels : nat; current : nat -> R; ratio : nat -> R; ignited : bool }.

(** IgniteDetonation.cpp:136-219 [AdvanceLevel] on one tube. Its only return statement is a success (line 218). *)
Definition Ignite (s : source) (t : tube) (level : nat) : source * tube * option R :=
  let '(fired, times) := advance (fst s) (snd s) level (current t level) (ratio t level) in
  ((fst s, times), {| levels := levels t; current := current t; ratio := ratio t; ignited := fired |}, None).

(** MultiBlockIgniteDetonation.cpp:25-30: copies of one object *)
Definition MakeSame (n_tubes max_number_levels : nat) (opts : ignite_options) : list source := repeat (opts, initial_times max_number_levels) n_tubes.

(** MultiBlockIgniteDetonation.cpp:32-40: options for each tube; None: opts[i] does not exist *)
Definition MakeEach (n_tubes max_number_levels : nat) (opts : list ignite_options) : option (list source) :=
  if (length opts <? n_tubes)%nat then None else Some (map (fun o => (o, initial_times max_number_levels)) (firstn n_tubes opts)).

(** MultiBlockIgniteDetonation.cpp:47-63 [AdvanceLevel] for any kind of source and tube, [adv] is source.AdvanceLevel (errors are numbers);
    None: the pointer [tube] leaves the array. Otherwise sources and tubes afterwards and the error. *)
Fixpoint AdvanceTubes {A T : Type} (number_of_levels : T -> nat) (adv : A -> T -> nat -> A * T * option R) (source_terms : list A) (tubes : list T) (level : nat)
    : option (list A * list T * option R) :=
  match source_terms with
  | [] => Some ([], tubes, None)
  | s :: ss =>
    match tubes with
    | [] => None
    | t :: ts =>
      let '(s', t', result) := if (level <? number_of_levels t)%nat then adv s t level else (s, t, None) in
      match result with
      | Some e => Some (s' :: ss, t' :: ts, Some e)
      | None => match AdvanceTubes number_of_levels adv ss ts level with
                | Some (ss', ts', r) => Some (s' :: ss', t' :: ts', r)
                | None => None
                end
      end
    end
  end.

(** MultiBlockIgniteDetonation.cpp:47-63 with IgniteDetonation as source *)
Definition AdvanceLevel (source_terms : list source) (tubes : list tube) (level : nat) := AdvanceTubes levels Ignite source_terms tubes level.

(** A history of calls of AdvanceLevel (MultiBlockIgniteDetonation.cpp:47-63) with the tubes at the time of each call; between calls the tubes change in any way.
    Returns the sources at the end and the tubes after each call. *)
Fixpoint History (source_terms : list source) (calls : list (list tube * nat)) : option (list source * list (list tube)) :=
  match calls with
  | [] => Some (source_terms, [])
  | (tubes, level) :: calls =>
    match AdvanceLevel source_terms tubes level with
    | Some (ss, ts, _) => match History ss calls with Some (ss, outs) => Some (ss, ts :: outs) | None => None end
    | None => None
    end
  end.

(** MultiBlockIgniteDetonation.hpp:56-62 and IgniteDetonation.hpp:118-123 [serialize] for writing: the time points of each source in order *)
Definition Save (source_terms : list source) : list (list R) := map snd source_terms.

(** The same function for reading (MultiBlockIgniteDetonation.hpp:56-62): each source takes the next entry; None: the archive ends too early *)
Fixpoint Load (source_terms : list source) (archive : list (list R)) : option (list source) :=
  match source_terms, archive with
  | [], _ => Some []
  | _ :: _, [] => None
  | s :: ss, times :: archive => match Load ss archive with Some ss => Some ((fst s, times) :: ss) | None => None end
  end.
