(** Vocabulary for C144 and C145. *)
From Coq Require Import List ZArith Reals Bool.
From Verif Require Import PlenaModel FeedbackModel.
Import ListNotations.
Local Open Scope R_scope.

(** Sum of a field over a list of points. *)
Fixpoint total (f : Z * Z -> R) (l : list (Z * Z)) : R := match l with [] => 0 | x :: r => f x + total f r end.
(** Membership of a point in a box. *)
Definition inside (b : box) (x : Z * Z) : Prop := (bx0 b <= fst x <= bx1 b /\ by0 b <= snd x <= by1 b)%Z.
(** A list that enumerates the points of a box. *)
Definition enumerates (b : box) (l : list (Z * Z)) : Prop := NoDup l /\ forall x, In x l <-> inside b x.
(** m is the arithmetic mean of the field over the box. *)
Definition is_mean (b : box) (f : Z * Z -> R) (m : R) : Prop :=
  exists l, enumerates b l /\ l <> [] /\ m * INR (length l) = total f l.
(** Exactly one element of a list satisfies P. *)
Definition exactly_one {A} (P : A -> Prop) (l : list A) : Prop :=
  exists l1 x l2, l = l1 ++ x :: l2 /\ P x /\ (forall y, In y (l1 ++ l2) -> ~ P y).
(** The field f is stored in the patches, wherever they are owned. *)
Definition holds_field (f : Z * Z -> R) (l : list fab) : Prop :=
  forall p x, In p l -> inside (f_box p) x -> f_data p (fst x) (snd x) = f x.

(** Two intervals of cells have no cell in common. *)
Definition apart (p q : tpatch) : Prop := (t_hi p < t_lo q \/ t_hi q < t_lo p)%Z.
(** The patches of a tube: not empty, in the domain, pairwise without common cells, and every cell is in one. *)
Definition decomposes (lo hi : Z) (l : list tpatch) : Prop :=
  Forall (fun p => lo <= t_lo p <= t_hi p /\ t_hi p <= hi)%Z l /\
  ForallOrdPairs apart l /\
  (forall i, (lo <= i <= hi)%Z -> exists p, In p l /\ (t_lo p <= i <= t_hi p)%Z).
Definition holds_flux (f : Z -> R) (l : list tpatch) : Prop :=
  forall p i, In p l -> (t_lo p <= i <= t_hi p + 1)%Z -> t_flux p i = f i.

(** Physical admissibility of a state and its pressure. *)
Definition internal_energy (q : cons) : R := c_E q - (c_mx q * c_mx q + c_my q * c_my q) / (2 * c_rho q).
Definition admissible (q : cons) : Prop := 0 < c_rho q /\ 0 < internal_energy q.

(** Content of the turbine plenum for the equation of state p = rho T. *)
Definition plenum_mass (to : toptions) (t : plenum) : R := volume to * (p_pressure t / p_temp t).
Definition plenum_energy (gm1 : R) (to : toptions) (t : plenum) : R := volume to * (p_pressure t / gm1).
(** Mass flow to the turbine and its specific enthalpy gamma / (gamma - 1) T. *)
Definition turbine_flow (to : toptions) (t : plenum) : R := correlation to * p_pressure t / sqrt (p_temp t).
Definition enthalpy (gm1 : R) (t : plenum) : R := (1 / gm1 + 1) * p_temp t.

(** Sum of the first n values. *)
Fixpoint sum_upto (n : nat) (f : nat -> R) : R := match n with O => 0 | S k => sum_upto k f + f k end.
(** The cells in front of the turbine: the configured box, or the domain if that box has no cell. *)
Definition chosen (configured domain cells : box) : Prop :=
  (cells = configured /\ exists x, inside configured x) \/ (cells = domain /\ ~ exists x, inside configured x).
(** The column of a box of cells or faces with a given first index. *)
Definition column (n : Z) (b : box) : box := mkBox n (by0 b) n (by1 b).
(** Faces of a patch of cells, and the patches of a MultiFab of faces made from patches of cells. *)
Definition faces_of (c : box) : box := mkBox (bx0 c) (by0 c) (bx1 c + 1) (by1 c).
