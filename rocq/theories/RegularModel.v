(** src/AMReX/cutcell/AllRegularIndexSpace.cpp: index spaces without embedded boundaries for all levels. *)
From Coq Require Import List ZArith Bool Arith.
Import ListNotations.
Local Open Scope Z_scope.

(** amrex::Box with closed bounds for each axis. A Geometry is modelled by its domain (coarsening and refining keep the coordinates). *)
Definition box := list (Z * Z).
(** amrex::refine and amrex::coarsen with one ratio for each axis (used in AllRegularIndexSpace.cpp:61-64 and 115) *)
Fixpoint refine (r : list Z) (b : box) : box :=
  match r, b with x :: r', (lo, hi) :: b' => (lo * x, (hi + 1) * x - 1) :: refine r' b' | _, _ => [] end.
Fixpoint coarsen (r : list Z) (b : box) : box :=
  match r, b with x :: r', (lo, hi) :: b' => (lo / x, hi / x) :: coarsen r' b' | _, _ => [] end.
Fixpoint large_enough (r : list Z) (b : box) : bool :=
  match r, b with x :: r', (lo, hi) :: b' => (x <=? hi - lo + 1) && large_enough r' b' | _, _ => true end.
(** operator== of amrex::Box *)
Fixpoint box_eqb (a b : box) : bool :=
  match a, b with [], [] => true | (l, h) :: a', (l', h') :: b' => (l =? l') && (h =? h') && box_eqb a' b' | _, _ => false end.
(** amrex::Box::coarsenable(ratio) with the default width (used in line 49) *)
Definition coarsenable (r : list Z) (b : box) : bool := large_enough r b && box_eqb b (refine r (coarsen r b)).

(** The members levels_, geometries_, domains_ and n_grows_ as one list *)
Definition level := (box * Z)%type.
(** The loop of lines 48-79 for ilev, ilev + 1, ...; None is a call of amrex::Abort; [isOK] tells whether AMReX could build a level *)
Fixpoint coarse_levels (turns : nat) (isOK : level -> bool) (r : list Z) (required ilev : nat) (levels : list level) : option (list level) :=
  match turns with
  | O => Some levels
  | S turns =>
      let back := last levels ([], 0) in
      if negb (coarsenable r (fst back)) then (if (ilev <=? required)%nat then None else Some levels)
      else
        let ng := if (required <? ilev)%nat then 0 else Z.quot (snd back) 2 in
        let lev := (coarsen r (fst back), ng) in
        if negb (isOK lev) then (if (ilev <=? required)%nat then None else Some levels)
        else coarse_levels turns isOK r required (S ilev) (levels ++ [lev])
  end.
(** AllRegularIndexSpace::AllRegularIndexSpace, lines 27-80; int is modelled by Z and nat *)
Definition AllRegularIndexSpace (isOK : level -> bool) (geom : box) (r : list Z) (required max_coarsening : nat) (ngrow : Z) : option (list level) :=
  let max_coarsening := Nat.min 30 (Nat.max required max_coarsening) in
  let ngrow_finest := Nat.iter required (fun n => n * 2) (Z.max ngrow 0) in
  coarse_levels max_coarsening isOK r required 1 [(geom, ngrow_finest)].
(** getLevel, lines 84-89 (and getGeometry, 91-96); None is an access beyond the end *)
Definition getLevel (space : list level) (domain : box) : option level := find (fun l => box_eqb (fst l) domain) space.
(** BuildRegularSpace, lines 102-118: the loop over levels; ngrow is 4 by default (AllRegularIndexSpace.hpp:33) *)
Fixpoint build_loop (isOK : level -> bool) (n lev : nat) (geom : box) (r : list Z) : option (list (list level)) :=
  match n with
  | O => Some []
  | S n =>
      match AllRegularIndexSpace isOK geom r lev (lev + 1) 4 with
      | None => None
      | Some s => match build_loop isOK n (S lev) (refine r geom) r with None => None | Some l => Some (s :: l) end
      end
  end.
Definition BuildRegularSpace (isOK : level -> bool) (coarse_geom : box) (r : list Z) (n_required_levels : nat) : option (list (list level)) :=
  build_loop isOK n_required_levels 0 coarse_geom r.
