(** Model of the output scheduling classes of include/fub/output. *)
From Coq Require Import Reals List ZArith Lra.
Import ListNotations.
Local Open Scope R_scope.

(** std::fmod(x, y) over the reals, used in
    include/fub/output/OutputAtFrequencyOrInterval.hpp:60-61 and 80-81: the remainder x - n*y where n is
    x/y rounded towards zero; [None] models NaN for y = 0. *)
Definition trunc (x : R) : Z := if Rle_dec 0 x then Int_part x else (- Int_part (- x))%Z.
Definition fmod (x y : R) : option R :=
  if Req_EM_T y 0 then None else Some (x - IZR (trunc (x / y)) * y).

(** Members of OutputAtFrequencyOrInterval, lines 100-103. *)
Record OutputAt := mkOutputAt {
  frequencies : list Z;
  intervals : list R;
  out_eps : R }.

(** One iteration of the loop in OutputAtFrequencyOrInterval::NextOutputTime, lines 58-65. *)
Definition next_output_iter (eps t next I : R) : R :=
  if Rlt_dec 0 I then
    match fmod t I with
    | Some r => Rmin next (t + (I - r + eps))
    | None => next
    end
  else next.

(** OutputAtFrequencyOrInterval::NextOutputTime, lines 56-67. [dbl_max] is
    std::numeric_limits<double>::max(). *)
Definition next_output_time_at (dbl_max : R) (o : OutputAt) (t : R) : R :=
  fold_left (next_output_iter (out_eps o) t) (intervals o) dbl_max.

(** [cycle % freq == 0] of lines 71-75; [None] for freq = 0 (undefined behaviour in C++). *)
Definition frequency_hit (cycle freq : Z) : option bool :=
  if Z.eqb freq 0 then None else Some (Z.eqb (Z.rem cycle freq) 0).

(** std::any_of over possibly undefined conditions; stops at the first hit. *)
Fixpoint any_of_opt {A} (f : A -> option bool) (l : list A) : option bool :=
  match l with
  | [] => Some false
  | a :: r => match f a with
              | None => None
              | Some true => Some true
              | Some false => any_of_opt f r
              end
  end.

(** The interval condition of lines 78-83 (NaN compares false). *)
Definition interval_hit (eps t I : R) : bool :=
  match fmod t I with
  | Some r => if Rlt_dec (Rabs r) (2 * eps) then true else false
  | None => false
  end.

(** OutputAtFrequencyOrInterval::ShallOutputNow, lines 69-87. *)
Definition shall_output_at (o : OutputAt) (cycle : Z) (t : R) : option bool :=
  match any_of_opt (frequency_hit cycle) (frequencies o) with
  | None => None
  | Some true => Some true
  | Some false =>
      if Req_EM_T t 0 then Some true
      else Some (existsb (interval_hit (out_eps o) t) (intervals o))
  end.

(** A member of MultipleOutputs (include/fub/output/MultipleOutputs.hpp:99): an arbitrary output
    object with queries and an action.  [G] is the grid, [W] the state of the outside world (files ...). *)
Record Member (G W : Type) := mkMember {
  m_next : R -> R;
  m_shall : G -> bool;
  m_act : G -> W -> W }.
Arguments mkMember {G W}. Arguments m_next {G W}. Arguments m_shall {G W}. Arguments m_act {G W}.

(** MultipleOutputs::NextOutputTime, MultipleOutputs.hpp:68-77. [None] is a null pointer. *)
Definition multi_next {G W} (dbl_max : R) (ms : list (option (Member G W))) (t : R) : R :=
  fold_left (fun mn o => match o with Some m => Rmin mn (m_next m t) | None => mn end) ms dbl_max.

(** MultipleOutputs::ShallOutputNow, MultipleOutputs.hpp:81-86. *)
Definition multi_shall {G W} (ms : list (option (Member G W))) (g : G) : bool :=
  existsb (fun o => match o with Some m => m_shall m g | None => false end) ms.

(** MultipleOutputs::operator(), MultipleOutputs.hpp:89-95. *)
Definition multi_act {G W} (ms : list (option (Member G W))) (g : G) (w : W) : W :=
  fold_left (fun w o => match o with
                        | Some m => if m_shall m g then m_act m g w else w
                        | None => w
                        end) ms w.

(** OutputFactory (include/fub/output/OutputFactory.hpp:63-66): a std::map from names to makers.
    Names are an arbitrary type with decidable equality [eqb]. *)
Section Factory.
  Context {Name Maker : Type}.
  Variable eqb : Name -> Name -> bool.

  Definition factory := list (Name * Maker).

  (** std::map::find as used by MakeOutput, OutputFactory.hpp:54-61; [None] is nullptr. *)
  Fixpoint make_output (f : factory) (n : Name) : option Maker :=
    match f with
    | [] => None
    | (k, v) :: r => if eqb k n then Some v else make_output r n
    end.

  (** OutputFactory::RegisterOutput, OutputFactory.hpp:43-50 (std::map::emplace: inserts only if the
      key is absent and reports whether it inserted). *)
  Definition register_output (f : factory) (n : Name) (m : Maker) : factory * bool :=
    match make_output f n with
    | Some _ => (f, false)
    | None => ((n, m) :: f, true)
    end.

  (** OutputFactory::Contains, OutputFactory.hpp:52. *)
  Definition factory_contains (f : factory) (n : Name) : bool :=
    match make_output f n with Some _ => true | None => false end.
End Factory.
