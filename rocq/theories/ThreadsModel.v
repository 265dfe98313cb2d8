(** include/fub/ext/omp.hpp, src/AMReX/MultiFabUtilities.cpp, include/fub/AMReX/multi_block/MultiBlockSourceTerm.hpp and
    the choice of the block in src/AMReX/multi_block/MultiWriteHdf5.cpp. *)
From Coq Require Import List ZArith Reals Bool.
From Verif Require Import FeedbackModel.
Import ListNotations.
Local Open Scope R_scope.

(** OmpLocal(value), omp.hpp:67-70: one copy per thread of the largest possible team at that time *)
Definition OmpLocal {A : Type} (max_threads : nat) (value : A) : list A := repeat value max_threads.
(** Get by a thread, lines 72-78, followed by a change of the instance. None: index outside of the vector. *)
Fixpoint change {A : Type} (thread : nat) (f : A -> A) (instances : list A) : option (list A) :=
  match instances, thread with
  | [], _ => None
  | x :: r, O => Some (f x :: r)
  | x :: r, S k => match change k f r with Some r' => Some (x :: r') | None => None end
  end.
(** A parallel loop: each pass is done by some thread; passes of different threads commute because they touch different
    instances, so any interleaving is described by a list of passes. *)
Fixpoint parallel {A : Type} (passes : list (nat * (A -> A))) (instances : list A) : option (list A) :=
  match passes with
  | [] => Some instances
  | (t, f) :: r => match change t f instances with Some i => parallel r i | None => None end
  end.
(** Accumulate, lines 133-139; None: no instance *)
Definition Accumulate {A : Type} (op : A -> A -> A) (instances : list A) : option A :=
  match instances with [] => None | x :: r => Some (fold_left op r x) end.
(** Min, lines 127-130, for numbers: std::min_element returns the first smallest *)
Definition Min (instances : list R) : option R :=
  match instances with [] => None | x :: r => Some (fold_left (fun m y => if Rlt_dec y m then y else m) r x) end.

(** GetInnerBox, MultiFabUtilities.cpp:57-74, in two dimensions; dir_x: the first direction *)
Definition GetInnerBox (b : box) (side : Z) (dir_x : bool) (width : Z) : box :=
  if (side =? 0)%Z then
    if dir_x then mkBox (bx0 b) (by0 b) (bx0 b + width - 1) (by1 b) else mkBox (bx0 b) (by0 b) (bx1 b) (by0 b + width - 1)
  else
    if dir_x then mkBox (bx1 b - width + 1) (by0 b) (bx1 b) (by1 b) else mkBox (bx0 b) (by1 b - width + 1) (bx1 b) (by1 b).

(** FArrayBox::sum over a box *)
Definition fab_sum (f : fab) (b : box) : R := fold_left (fun acc ij => acc + f_data f (fst ij) (snd ij)) (points b) 0.
(** GetMeanValueInBox, lines 76-91, on one rank: passes are tiles (ForEachFab with openmp, ForEachFab.hpp:49-57), given by
    the thread and the fab the tile belongs to; fab.box() includes the ghost cells (f_box is that box here) and does not
    depend on the tile *)
Definition local_mean (b : box) (max_threads : nat) (tiles : list (nat * fab)) : option R :=
  match parallel (map (fun tf => (fst tf, fun v => v + fab_sum (snd tf) (inter b (f_box (snd tf))) / INR (numPts b))) tiles)
          (OmpLocal max_threads 0) with
  | Some i => Accumulate Rplus i
  | None => None
  end.
(** Sum over all ranks; None if some rank has undefined behaviour *)
Fixpoint GetMeanValueInBox (b : box) (ranks : list (nat * list (nat * fab))) : option R :=
  match ranks with
  | [] => Some 0
  | (threads, tiles) :: r =>
    match local_mean b threads tiles, GetMeanValueInBox b r with Some x, Some y => Some (x + y) | _, _ => None end
  end.

(** MultiBlockSourceTerm.hpp. A source term is what it does to a tube: the time step it allows and, for a given step, the
    new tube and whether it succeeded (TimeStepTooLarge otherwise, with the admissible step). The level is fixed. *)
Record source (T : Type) := mkSource { stable : T -> R; advance : T -> R -> T * option R }.
Arguments mkSource {T} stable advance. Arguments stable {T} s t. Arguments advance {T} s t dt.
(** std::numeric_limits<double>::max(), line 53 *)
Definition double_max : R := (2 - / 2 ^ 52) * 2 ^ 1023.
(** ComputeStableDt, lines 51-59: zip ends with the shorter range *)
Definition MultiStableDt {T : Type} (tubes : list T) (sources : list (source T)) : R :=
  fold_left (fun dt ts => if Rlt_dec (stable (snd ts) (fst ts)) dt then stable (snd ts) (fst ts) else dt) (combine tubes sources) double_max.
(** AdvanceLevel, lines 62-78: None: sources[i] does not exist (the assertion is not compiled into release builds);
    otherwise the tubes afterwards and the first error *)
Fixpoint MultiAdvance {T : Type} (tubes : list T) (sources : list (source T)) (dt : R) : option (list T * option R) :=
  match tubes with
  | [] => Some ([], None)
  | t :: ts =>
    match sources with
    | [] => None
    | s :: ss =>
      match advance s t dt with
      | (t', Some e) => Some (t' :: ts, Some e)
      | (t', None) =>
        match MultiAdvance ts ss dt with Some (ts', r) => Some (t' :: ts', r) | None => None end
      end
    end
  end.

(** MultiWriteHdf5.cpp:42-44 and 161-182: the block that is written. Sizes of spans are signed. *)
Inductive block := Plenum (i : nat) | Tube (i : nat) | NoBlock | OutOfBounds.
Definition clamp01 (k : Z) : Z := if (k <? 0)%Z then 0%Z else if (1 <? k)%Z then 1%Z else k.
Definition written_block (which_block : Z) (n_plena n_tubes : nat) : block :=
  let type := clamp01 which_block in
  let grid_id := (which_block - type)%Z in
  if ((type =? 0) && (grid_id <? Z.of_nat n_plena))%Z then
    if (grid_id <? 0)%Z then OutOfBounds else Plenum (Z.to_nat grid_id)
  else if (grid_id <? Z.of_nat n_tubes)%Z then
    if (grid_id <? 0)%Z then OutOfBounds else Tube (Z.to_nat grid_id)
  else NoBlock.
