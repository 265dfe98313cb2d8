(** Vocabulary for C79-C82: self-similar solutions of the shallow water equations. *)
From Coq Require Import List Reals.
From Verif Require Import ShallowModel.
Import ListNotations.
Local Open Scope R_scope.

(** The conserved quantities: water, momentum in the direction of the problem, momentum across it. *)
Inductive conserved := Water | Along | Across.

(** The density of a conserved quantity. *)
Definition amount (d : bool) (c : conserved) (q : water) : R :=
  match c with Water => height q | Along => along d q | Across => across d q end.

(** Its flux h u, h u^2 + g h^2 / 2, h u v, with u = m / h. *)
Definition transport (g : R) (d : bool) (c : conserved) (q : water) : R :=
  match c with
  | Water => along d q
  | Along => along d q * (along d q / height q) + 1 / 2 * g * (height q * height q)
  | Across => across d q * (along d q / height q)
  end.

(** The mechanical energy h (u^2 + v^2) / 2 + g h^2 / 2 and its flux (h (u^2 + v^2) / 2 + g h^2) u. *)
Definition mechanical (g : R) (d : bool) (q : water) : R :=
  1 / 2 * (along d q * along d q + across d q * across d q) / height q + 1 / 2 * g * (height q * height q).
Definition mechanical_flux (g : R) (d : bool) (q : water) : R :=
  (1 / 2 * (along d q * along d q + across d q * across d q) / height q + g * (height q * height q)) * (along d q / height q).

(** One sided limits of real functions. *)
Definition left_limit (f : R -> R) (x l : R) : Prop := limit1_in f (fun y => y < x) l x.
Definition right_limit (f : R -> R) (x l : R) : Prop := limit1_in f (fun y => x < y) l x.

(** w(x/t) satisfies the conservation laws at x/t = xi, where it is smooth. *)
Definition conserved_at (g : R) (d : bool) (w : R -> water) (xi : R) : Prop :=
  forall c, exists dq df,
    derivable_pt_lim (fun x => amount d c (w x)) xi dq /\
    derivable_pt_lim (fun x => transport g d c (w x)) xi df /\
    df = xi * dq.

(** w has limits from both sides at xi which satisfy the jump conditions of a discontinuity with the speed xi, and
    mechanical energy is not created. *)
Definition jump_at (g : R) (d : bool) (w : R -> water) (xi : R) : Prop :=
  exists ql qr,
    0 < height ql /\ 0 < height qr /\
    (forall c, left_limit (fun x => amount d c (w x)) xi (amount d c ql)) /\
    (forall c, right_limit (fun x => amount d c (w x)) xi (amount d c qr)) /\
    (forall c, transport g d c qr - transport g d c ql = xi * (amount d c qr - amount d c ql)) /\
    mechanical_flux g d qr - mechanical_flux g d ql <= xi * (mechanical g d qr - mechanical g d ql) /\
    (w xi = ql \/ w xi = qr).

(** w(x/t) is an entropy solution of the Riemann problem with the initial states l and r. *)
Definition riemann_solution (g : R) (d : bool) (l r : water) (w : R -> water) : Prop :=
  (exists breaks,
     (forall xi, ~ In xi breaks -> conserved_at g d w xi) /\
     (forall xi, In xi breaks -> jump_at g d w xi)) /\
  (exists a b, (forall xi, xi < a -> w xi = l) /\ (forall xi, b < xi -> w xi = r)) /\
  (forall xi, 0 < height (w xi)).

(** The rarefactions starting at the two states would leave dry ground between them. *)
Definition dry (g : R) (d : bool) (l r : water) : Prop :=
  2 * (sqrt (g * height l) + sqrt (g * height r)) <= along d r / height r - along d l / height l.
