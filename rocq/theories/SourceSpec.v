(** Vocabulary for C97: solvers whose calls are written to a log. *)
From Coq Require Import List Reals Bool.
From Verif Require Import SplitModel SplitSpec SourceModel.
Import ListNotations.
Local Open Scope R_scope.

(** Calls of hooks that can be observed *)
Inductive event := PreHierarchy (who : nat) | PostHierarchy (who : nat) (dt : option R) | PreLevel (who : nat) (dt : R) | PostLevel (who : nat) (dt : R) (r : Result).

(** all solvers of an integrator, the outermost source first, the system last *)
Definition members {W} (sources : list (solver W * method)) (system : solver W) : list (solver W) := map fst sources ++ [system].

(** the solver s under the name i with an observed AdvanceLevel *)
Definition observe {W} (i : nat) (s : solver W) : solver (list call * W) :=
  {| s_advance := logged i (s_advance s); s_stable_dt := fun '(_, w) => s_stable_dt s w;
     s_pre_hierarchy := None; s_post_hierarchy := NoPost; s_pre_level := None; s_post_level := None |}.
Fixpoint observe_from {W} (i : nat) (sources : list (solver W * method)) : list (solver (list call * W) * method) :=
  match sources with [] => [] | (s, m) :: r => (observe i s, m) :: observe_from (S i) r end.

(** the solver s under the name i with observed hooks *)
Definition observe_hooks {W} (i : nat) (s : solver W) : solver (list event * W) :=
  {| s_advance := fun dt '(l, w) => let '(w', r) := s_advance s dt w in ((l, w'), r);
     s_stable_dt := fun '(_, w) => s_stable_dt s w;
     s_pre_hierarchy := match s_pre_hierarchy s with Some f => Some (fun '(l, w) => (l ++ [PreHierarchy i], f w)) | None => None end;
     s_post_hierarchy := match s_post_hierarchy s with
       | NoPost => NoPost
       | PostDt f => PostDt (fun dt '(l, w) => (l ++ [PostHierarchy i (Some dt)], f dt w))
       | PostPlain f => PostPlain (fun '(l, w) => (l ++ [PostHierarchy i None], f w))
       end;
     s_pre_level := match s_pre_level s with Some f => Some (fun dt '(l, w) => (l ++ [PreLevel i dt], f dt w)) | None => None end;
     s_post_level := match s_post_level s with
       | Some f => Some (fun dt '(l, w) => let '(w', r) := f dt w in ((l ++ [PostLevel i dt r], w'), r))
       | None => None
       end |}.
Fixpoint observe_hooks_from {W} (i : nat) (sources : list (solver W * method)) : list (solver (list event * W) * method) :=
  match sources with [] => [] | (s, m) :: r => (observe_hooks i s, m) :: observe_hooks_from (S i) r end.

(** names of the members that have a hook, outermost first *)
Fixpoint having {A} (has : A -> bool) (i : nat) (l : list A) : list nat :=
  match l with [] => [] | x :: r => (if has x then [i] else []) ++ having has (S i) r end.
Definition has_pre_level {W} (s : solver W) : bool := match s_pre_level s with Some _ => true | None => false end.
Definition has_post_level {W} (s : solver W) : bool := match s_post_level s with Some _ => true | None => false end.
Definition has_pre_hierarchy {W} (s : solver W) : bool := match s_pre_hierarchy s with Some _ => true | None => false end.
Definition has_post_hierarchy {W} (s : solver W) : bool := match s_post_hierarchy s with NoPost => false | _ => true end.
(** who made an event *)
Definition whose (e : event) : nat := match e with PreHierarchy i => i | PostHierarchy i _ => i | PreLevel i _ => i | PostLevel i _ _ => i end.
