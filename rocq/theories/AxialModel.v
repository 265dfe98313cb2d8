(** Model of tubes with a varying cross section.
    Sources: include/fub/AMReX/AxialTimeIntegrator.hpp, include/fub/AMReX/AxialFluxMethodAdapter.hpp,
    src/AMReX/AxialSourceTerm.cpp.  Doubles are real numbers.  Tubes have one space direction; cells and faces have an
    integer index, a face has the index of the cell right of it. *)
From Coq Require Import List ZArith Reals Bool.
Import ListNotations.
Local Open Scope R_scope.

(** Cell data: cell and component (amrex::MultiFab, AxialTimeIntegrator.hpp:144-148).  All patches of a level are one
    function of the index, ghost cells of different patches are distinct patches. *)
Definition cells := Z -> nat -> R.

(** nextv(cell, i) = v, AxialTimeIntegrator.hpp:174 *)
Definition put (m : cells) (c : Z) (k : nat) (v : R) : cells :=
  fun c' k' => if (Z.eqb c' c && Nat.eqb k' k)%bool then v else m c' k'.

(** AxialTimeIntegrator.hpp:170-172: [A_left], [A_right], [ooA] *)
Definition ooA (area : Z -> R) (c : Z) : R := 2 / (area c + area (c + 1)%Z).

(** AxialTimeIntegrator.hpp:173-177: the loop over the components; dest and src are the same MultiFab (194) *)
Fixpoint update_components (area : Z -> R) (flux : cells) (dt dx : R) (c : Z) (ks : list nat) (m : cells) : cells :=
  match ks with
  | [] => m
  | k :: ks' =>
      update_components area flux dt dx c ks'
        (put m c k (m c k + dt / dx * (area c * flux c k - area (c + 1)%Z * flux (c + 1)%Z k) * ooA area c))
  end.

(** AxialTimeIntegrator.hpp:165-183: one cell; [mom] is indices_.momentum[0] *)
Definition update_cell (mom n_cons : nat) (area pressure : Z -> R) (flux : cells) (dt dx : R) (m : cells) (c : Z) : cells :=
  let m1 := update_components area flux dt dx c (seq 0 n_cons) m in
  let p_center := 1 / 2 * (pressure c + pressure (c + 1)%Z) in
  put m1 c mom (m1 c mom + dt / dx * (area (c + 1)%Z - area c) * p_center * ooA area c).

(** the indices lower <= i < upper, amrex::Box and ForEachIndex (AxialTimeIntegrator.hpp:165) *)
Definition between (lower upper : Z) : list Z := map (fun i => lower + Z.of_nat i)%Z (seq 0 (Z.to_nat (upper - lower))).

(** AxialTimeIntegrator.hpp:149-154: cells of the tile [tlo, thi) whose faces are all in the flux box, i.e. faces flo, ..,
    fhi - 1 *)
Definition cell_box (tile flux_box : Z * Z) : Z * Z :=
  (Z.max (fst tile) (fst flux_box), Z.min (snd tile) (snd flux_box - 1)).

(** AxialTimeIntegrator.hpp:134-185 [UpdateConservatively] for one patch *)
Definition UpdateConservatively (mom n_cons : nat) (area pressure : Z -> R) (flux : cells) (dt dx : R)
    (tile flux_box : Z * Z) (m : cells) : cells :=
  let b := cell_box tile flux_box in
  fold_left (update_cell mom n_cons area pressure flux dt dx) (between (fst b) (snd b)) m.

(** ** The cached areas *)

(** The layout of a level: boxes of faces with their distribution and ghost cells (boxArray, DistributionMap, nGrowVect;
    the latter two are numbers here), AxialTimeIntegrator.hpp:118-120 *)
Record layout := mkLayout { boxes : list (Z * Z); distribution : list nat; ghosts : Z }.

(** comparison of two layouts, AxialTimeIntegrator.hpp:118-120 *)
Definition layout_eq_dec (a b : layout) : {a = b} + {a <> b}.
Proof.
  destruct a as [x y z], b as [x' y' z'].
  assert (forall p q : Z * Z, {p = q} + {p <> q}) as D by (decide equality; apply Z.eq_dec).
  destruct (list_eq_dec D x x') as [-> | N]; [|right; congruence].
  destruct (list_eq_dec Nat.eq_dec y y') as [-> | N]; [|right; congruence].
  destruct (Z.eq_dec z z') as [-> | N]; [left; reflexivity | right; congruence].
Defined.

(** amrex::Geometry of a level: lowest coordinate and cell size (geoms_, AxialTimeIntegrator.hpp:70) *)
Record geometry := mkGeometry { prob_lo : R; cell_size : R }.
(** Geometry::LoFace, AxialTimeIntegrator.hpp:127 *)
Definition LoFace (g : geometry) (i : Z) : R := prob_lo g + cell_size g * IZR i.

(** A MultiFab of areas: its layout and its values; a default constructed one (hpp:112 [resize]) has no boxes *)
Record area_fab := mkFab { fab_layout : layout; fab_values : Z -> R }.
(** default constructed MultiFab, AxialTimeIntegrator.hpp:112 *)
Definition empty_fab : area_fab := mkFab (mkLayout [] [] 0) (fun _ => 0).

(** std::vector::resize, AxialTimeIntegrator.hpp:112 *)
Definition resize (n : nat) (l : list area_fab) : list area_fab := firstn n l ++ repeat empty_fab (n - length l).

(** replaces element number i, AxialTimeIntegrator.hpp:121-130 *)
Fixpoint replace_nth (i : nat) (x : area_fab) (l : list area_fab) : list area_fab :=
  match l, i with
  | [], _ => []
  | _ :: r, O => x :: r
  | y :: r, S j => y :: replace_nth j x r
  end.

(** AxialTimeIntegrator.hpp:107-132 [RecomputeAxIfNeeded]; [pressures] are the layouts of *pressure_ *)
Definition RecomputeAxIfNeeded (A : R -> R) (geoms : list geometry) (pressures : list layout) (level : nat)
    (Ax : list area_fab) : list area_fab :=
  let Ax1 := if Nat.eqb (length pressures) (length Ax) then Ax else resize (length pressures) Ax in
  let p := nth level pressures (mkLayout [] [] 0) in
  if layout_eq_dec p (fab_layout (nth level Ax1 empty_fab)) then Ax1
  else replace_nth level (mkFab p (fun i => A (LoFace (nth level geoms (mkGeometry 0 0)) i))) Ax1.

(** A call of the integrator, a change of the grid (AxialFluxMethodAdapter.hpp:132-148 allocates the pressures with the
    layout of the fluxes) or a copy of the integrator, which does not copy the areas (AxialTimeIntegrator.hpp:94-98) *)
Inductive axial_event :=
| Update (level : nat)
| Allocate (pressures : list layout)
| CopyIntegrator.

(** effect of an event on the layouts of the pressures and the cached areas *)
Definition axial_step (A : R -> R) (geoms : list geometry) (s : list layout * list area_fab) (e : axial_event) :
    list layout * list area_fab :=
  match e with
  | Update level => (fst s, RecomputeAxIfNeeded A geoms (fst s) level (snd s))
  | Allocate p => (p, snd s)
  | CopyIntegrator => (fst s, [])
  end.

(** ** The source term for a varying diameter *)

(** density, velocity, pressure, ratio of heats and c_p of a state (AxialSourceTerm.cpp:109-113) *)
Record gas_state := mkGas { density : R; velocity : R; pressure : R; gamma : R; c_p : R }.

(** AxialSourceTerm.cpp:72-75, 107-108: [A] and [dAdx] of a cell, [x] the position of its centre *)
Definition diameters (diameter : R -> R) (x dx : R) : R * R :=
  (diameter (x + 1 / 2 * dx), (diameter (x + dx) - diameter x) / dx).

(** AxialSourceTerm.cpp:107-119: density, velocity and temperature given to the reactor *)
Definition axial_source (A dAdx dt : R) (q : gas_state) : R * R * R :=
  let Rspec := c_p q - c_p q / gamma q in
  let u := velocity q in
  let u_dAdx_A := u * dAdx / A in
  let rho := density q * exp (- u_dAdx_A * dt) in
  let p := pressure q * exp (- gamma q * u_dAdx_A * dt) in
  let T := p / (Rspec * rho) in
  (rho, u, T).
