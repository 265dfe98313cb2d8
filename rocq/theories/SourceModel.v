(** Model of level integrators with source terms.
    Source: include/fub/solver/SplitSystemSourceLevelIntegrator.hpp.  Such an integrator may itself be the system of another one (as in the
    examples of the library), which gives a list of source terms around one system.  The level and the sub-cycle are the same in all
    calls of one step and are left out.  Durations are real numbers. *)
From Coq Require Import List Reals Bool.
From Verif Require Import SplitModel.
Import ListNotations.
Local Open Scope R_scope.

(** PostAdvanceHierarchy of a solver may be absent, take the step size or take nothing
    (SplitSystemSourceLevelIntegrator.hpp:142-160) *)
Inductive post_hook (W : Type) := NoPost | PostDt (f : R -> W -> W) | PostPlain (f : W -> W).
Arguments NoPost {W}. Arguments PostDt {W}. Arguments PostPlain {W}.

(** What the integrator uses of a system solver or a source term: AdvanceLevel(NonRecursively), ComputeStableDt and the hooks, which are
    optional for source terms (SplitSystemSourceLevelIntegrator.hpp:130-205).  Changes of solver and data are changes of W *)
Record solver (W : Type) := mkSolver {
  s_advance : op W;
  s_stable_dt : W -> R;
  s_pre_hierarchy : option (W -> W);
  s_post_hierarchy : post_hook W;
  s_pre_level : option (R -> W -> W);
  s_post_level : option (R -> W -> W * Result)
}.
Arguments mkSolver {W}. Arguments s_advance {W}. Arguments s_stable_dt {W}. Arguments s_pre_hierarchy {W}. Arguments s_post_hierarchy {W}.
Arguments s_pre_level {W}. Arguments s_post_level {W}.

Section Integrator.
Context {W : Type}.

(** the detection of an optional member, SplitSystemSourceLevelIntegrator.hpp:133, 136 *)
Definition call_if_detected (f : option (W -> W)) (w : W) : W := match f with Some g => g w | None => w end.

(** SplitSystemSourceLevelIntegrator.hpp:146-151 and 153-159 *)
Definition call_post (f : post_hook W) (dt : R) (w : W) : W := match f with NoPost => w | PostDt g => g dt w | PostPlain g => g w end.

(** A source term around a system gives a system: the class SplitSystemSourceLevelIntegrator,
    SplitSystemSourceLevelIntegrator.hpp:36-107.
    - AdvanceLevelNonRecursively, 207-222: splitting_.Advance(dt, AdvanceSource, AdvanceSystem)
    - ComputeStableDt, 162-175: std::min(system, source), i.e. the source only if it is smaller
    - PreAdvanceHierarchy, 130-139; PostAdvanceHierarchy, 141-160
    - PreAdvanceLevel, 177-187: the hook of the system is not optional; a missing one is no call here
    - PostAdvanceLevel, 189-200: the result of the source term is discarded *)
Definition with_source (source : solver W) (m : method) (system : solver W) : solver W :=
  {| s_advance := fun dt => advance2 m dt (s_advance source) (s_advance system);
     s_stable_dt := fun w => if Rlt_dec (s_stable_dt source w) (s_stable_dt system w) then s_stable_dt source w else s_stable_dt system w;
     s_pre_hierarchy := Some (fun w => call_if_detected (s_pre_hierarchy source) (call_if_detected (s_pre_hierarchy system) w));
     s_post_hierarchy := PostDt (fun dt w => call_post (s_post_hierarchy system) dt (call_post (s_post_hierarchy source) dt w));
     s_pre_level := Some (fun dt w =>
       let w1 := match s_pre_level system with Some f => f dt w | None => w end in
       match s_pre_level source with Some f => f dt w1 | None => w1 end);
     s_post_level := Some (fun dt w =>
       let w1 := match s_post_level source with Some f => fst (f dt w) | None => w end in
       match s_post_level system with Some f => f dt w1 | None => (w1, None) end) |}.

(** Nested integrators, the outermost source term first (SplitSystemSourceLevelIntegrator.hpp:36-38: the system solver is any level
    integrator) *)
Fixpoint integrator (sources : list (solver W * method)) (system : solver W) : solver W :=
  match sources with
  | [] => system
  | (s, m) :: r => with_source s m (integrator r system)
  end.
End Integrator.
