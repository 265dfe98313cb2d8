(** Specification vocabulary for output scheduling. *)
From Coq Require Import Reals List ZArith.
From Verif Require Import OutputModel.
Import ListNotations.
Local Open Scope R_scope.

(** The members which are present and want output, in order. *)
Fixpoint due_members {G W} (ms : list (option (Member G W))) (g : G) : list (Member G W) :=
  match ms with
  | [] => []
  | None :: r => due_members r g
  | Some m :: r => if m_shall m g then m :: due_members r g else due_members r g
  end.

(** Invoke a list of members one after the other. *)
Fixpoint act_all {G W} (ms : list (Member G W)) (g : G) (w : W) : W :=
  match ms with
  | [] => w
  | m :: r => act_all r g (m_act m g w)
  end.

(** The maker which was registered first under a name, in a history of registrations (oldest first). *)
Fixpoint first_registered {Name Maker} (eqb : Name -> Name -> bool)
    (history : list (Name * Maker)) (n : Name) : option Maker :=
  match history with
  | [] => None
  | (k, v) :: r => if eqb k n then Some v else first_registered eqb r n
  end.

(** The factory after a history of registrations, and the flags returned. *)
Fixpoint register_all {Name Maker} (eqb : Name -> Name -> bool) (f : list (Name * Maker))
    (history : list (Name * Maker)) : list (Name * Maker) * list bool :=
  match history with
  | [] => (f, [])
  | (k, v) :: r =>
      let '(f', b) := register_output eqb f k v in
      let '(f'', bs) := register_all eqb f' r in
      (f'', b :: bs)
  end.
