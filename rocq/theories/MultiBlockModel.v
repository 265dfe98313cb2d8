(** Coupling of one-dimensional tubes with plena: ghost cells from averaged and resampled data, fluxes at the
    connections, and the calls which renew the ghost data.  Doubles are real numbers. *)
From Coq Require Import List Reals ZArith Bool Arith.
Import ListNotations.
Local Open Scope R_scope.

(** ** Resampling between cell sizes: src/AMReX/multi_block/MultiBlockBoundary.cpp:145-231 (the same text in
    MultiBlockBoundary2.cpp:266-352).  [None] stands for a read beyond the end of [src]. *)

(** MultiBlockBoundary.cpp:161-165, the loop "while (src_sum + src_dx <= dest_dx)".  Every round reads one cell of [src]
    and moves on, so [fuel] = length of [src] + 1 is enough. *)
Fixpoint full_cells (fuel : nat) (src : list R) (src_dx dest_dx acc src_sum : R) (src_index : nat) : option (R * R * nat) :=
  if Rle_dec (src_sum + src_dx) dest_dx then
    match fuel, nth_error src src_index with
    | S fuel', Some v => full_cells fuel' src src_dx dest_dx (acc + src_dx / dest_dx * v) (src_sum + src_dx) (S src_index)
    | _, _ => None
    end
  else Some (acc, src_sum, src_index).

(** MultiBlockBoundary.cpp:151-171: one round of the loop over the cells of [dest]; result: value, src_index, last_remainder *)
Definition greater_cell (src : list R) (src_dx dest_dx : R) (src_index : nat) (last_remainder : R) : option (R * nat * R) :=
  match
    (if Rlt_dec 0 last_remainder then
       match nth_error src src_index with
       | Some v => let rest_dx := src_dx - last_remainder in Some (rest_dx / dest_dx * v, rest_dx, S src_index)
       | None => None
       end
     else Some (0, 0, src_index))
  with
  | None => None
  | Some (acc, src_sum, i) =>
      match full_cells (S (length src)) src src_dx dest_dx acc src_sum i with
      | None => None
      | Some (acc', src_sum', i') =>
          match nth_error src i' with
          | None => None
          | Some v => let remainder := dest_dx - src_sum' in Some (acc' + remainder / dest_dx * v, i', remainder)
          end
      end
  end.

(** MultiBlockBoundary.cpp:145-172; [n] is the number of cells of [dest]. *)
Fixpoint greater_cells (n : nat) (src : list R) (src_dx dest_dx : R) (src_index : nat) (last_remainder : R) : option (list R) :=
  match n with
  | O => Some []
  | S n' =>
      match greater_cell src src_dx dest_dx src_index last_remainder with
      | None => None
      | Some (v, i, r) =>
          match greater_cells n' src src_dx dest_dx i r with None => None | Some l => Some (v :: l) end
      end
  end.
Definition InterpolateStates_Greater (n : nat) (dest_dx : R) (src : list R) (src_dx : R) : option (list R) :=
  greater_cells n src src_dx dest_dx 0 0.

(** static_cast<std::ptrdiff_t>(x) for x >= 0, ::fmod(x, y) for x >= 0 and y > 0, std::ceil *)
Definition trunc (x : R) : nat := Z.to_nat (Int_part x).
Definition fmod (x y : R) : R := x - IZR (Int_part (x / y)) * y.
Definition ceil (x : R) : Z := (- Int_part (- x))%Z.

(** MultiBlockBoundary.cpp:174-194: one round of the loop *)
Definition less_cell (dest_dx : R) (src : list R) (src_dx : R) (i : nat) : option R :=
  let x_lower := dest_dx * INR i in
  let x_upper := dest_dx * INR (S i) in
  let j0 := trunc (x_lower / src_dx) in
  let j1 := trunc (x_upper / src_dx) in
  if Nat.eqb j0 j1 then nth_error src j0
  else
    let weight1 := fmod x_upper src_dx in
    let weight0 := dest_dx - weight1 in
    if (if Rlt_dec 0 weight1 then true else false) && Nat.ltb j1 (length src) then
      match nth_error src j0, nth_error src j1 with
      | Some a, Some b => Some (weight0 / dest_dx * a + weight1 / dest_dx * b)
      | _, _ => None
      end
    else nth_error src j0.

Fixpoint all_some {A} (l : list (option A)) : option (list A) :=
  match l with
  | [] => Some []
  | Some a :: l' => match all_some l' with Some r => Some (a :: r) | None => None end
  | None :: _ => None
  end.
Definition InterpolateStates_Less (n : nat) (dest_dx : R) (src : list R) (src_dx : R) : option (list R) :=
  all_some (map (less_cell dest_dx src src_dx) (seq 0 n)).

(** MultiBlockBoundary.cpp:196-231, one component.  dest.copy(src) copies the common cells; the caller gives boxes of
    the same number of cells if the cell sizes are equal (mirror_width = ceil(gcw)), other lengths are not modelled. *)
Definition InterpolateStates (n : nat) (dest_dx : R) (src : list R) (src_dx : R) (side : nat) : option (list R) :=
  let f := if Rlt_dec src_dx dest_dx then Some (fun s => InterpolateStates_Greater n dest_dx s src_dx)
           else if Rlt_dec dest_dx src_dx then Some (fun s => InterpolateStates_Less n dest_dx s src_dx) else None in
  match f with
  | Some f => if Nat.eqb side 1 then option_map (@rev R) (f (rev src)) else f src
  | None => if Nat.eqb (length src) n then Some src else None
  end.

(** ** Boxes along the direction of the connection: MultiBlockBoundary.cpp:271-300 (MultiBlockBoundary2.cpp:385-414).
    [box] is already refined to the level. *)
Definition MakeMirrorBox (box : Z * Z) (width : Z) (side : nat) : Z * Z :=
  let '(lo, hi) := box in if Nat.eqb side 1 then ((hi - width + 1)%Z, hi) else (lo, (lo + width - 1)%Z).
Definition MakeGhostBox (box : Z * Z) (width : Z) (side : nat) : Z * Z :=
  let '(lo, hi) := box in if Nat.eqb side 1 then ((hi + 1)%Z, (hi + width)%Z) else ((lo - width)%Z, (lo - 1)%Z).
Definition Flip (side : nat) : nat := if Nat.eqb side 0 then 1%nat else 0%nat.

(** The cells of a box in the order of the indices *)
Definition cells (box : Z * Z) : list Z :=
  let '(lo, hi) := box in map (fun k => (lo + Z.of_nat k)%Z) (seq 0 (Z.to_nat (hi - lo + 1))).

(** One direction of the coupling, one component: the ghost cells of a block ("to") from the cells of the other block
    ("from", [data] at the index of a cell).  MultiBlockBoundary.cpp:361-421 (boxes), 433-461 (plenum to tube, side =
    side_) and 476-501 (tube to plenum, side = Flip(side_)); MultiBlockBoundary2.cpp:468-520 and 535-581 without normal.
    [side] is the side of the block "from" at which the connection is; ghost cell number k gets the value number k.  The test
    "density > 0" and the completion of the state are modelled by [complete_ghost] below. *)
Definition ghost_box (box_to : Z * Z) (gcw : nat) (dx_from dx_to : R) (side : nat) : Z * Z :=
  let width := ceil (INR gcw * dx_from / dx_to) in
  MakeGhostBox (MakeMirrorBox box_to width (Flip side)) (Z.of_nat gcw) (Flip side).
Definition mirror_cells (box_from : Z * Z) (gcw : nat) (dx_from dx_to : R) (side : nat) : list Z :=
  cells (MakeMirrorBox box_from (ceil (INR gcw * dx_to / dx_from)) side).
Definition ghost_values (data : Z -> R) (box_from : Z * Z) (gcw : nat) (dx_from dx_to : R) (side : nat) : option (list R) :=
  InterpolateStates gcw dx_to (map data (mirror_cells box_from gcw dx_from dx_to side)) dx_from side.
Definition ghost_value (data : Z -> R) (box_from box_to : Z * Z) (gcw : nat) (dx_from dx_to : R) (side : nat) (j : Z) : option R :=
  match ghost_values data box_from gcw dx_from dx_to side with
  | Some l => nth_error l (Z.to_nat (j - fst (ghost_box box_to gcw dx_from dx_to side)))
  | None => None
  end.

(** ** Averages over the cross section of the plenum *)

(** A cell of the plenum: index along x, volume fraction, conservative state (component, value) *)
Record pcell := mkCell { cell_x : Z; alpha : R; q : nat -> R }.
Definition sum (l : list R) : R := fold_right Rplus 0 l.

(** MultiBlockBoundary.cpp:64-90 for one index: every rank adds over its tiles, MPI_Allreduce adds over the ranks.
    [blocks]: ranks, tiles (cut with the mirror box), cells. *)
Definition ReduceTotalVolume (cell_volume : R) (blocks : list (list (list pcell))) (i : Z) : R :=
  sum (map (fun rank => sum (map (fun tile => sum (map (fun c => if Z.eqb (cell_x c) i then alpha c * cell_volume else 0) tile)) rank)) blocks).

(** MultiBlockBoundary.cpp:92-143 (IntegrateConserativeStates, AverageConservativeHierarchyStates) *)
Definition AverageConservativeHierarchyStates (cell_volume : R) (blocks : list (list (list pcell))) (i : Z) (comp : nat) : R :=
  sum (map (fun rank => sum (map (fun tile => sum (map (fun c =>
    if Z.eqb (cell_x c) i then
      if Rlt_dec 0 (alpha c) then alpha c * cell_volume / ReduceTotalVolume cell_volume blocks i * q c comp else 0
    else 0) tile)) rank)) blocks).

(** MultiBlockBoundary.cpp:47-58 (ReduceDimension of a box) and 77-80, 103-107 (index of the reduced cell): [dir] is the
    direction of the connection, the reduced index is always taken along x. *)
Definition ReduceDimension (idx : nat -> Z) (dir : nat) : nat -> Z := fun d => if Nat.eqb d dir then idx d else 0%Z.
Definition ld_index (idx : nat -> Z) : nat -> Z := fun d => if Nat.eqb d 0 then idx d else 0%Z.
Definition in_box (n : nat) (lo hi idx : nat -> Z) : Prop := forall d, (d < n)%nat -> (lo d <= idx d <= hi d)%Z.

(** MultiBlockBoundary2.cpp:92-134 and 155-190: averages over the cut cells with the normal of the connection.  A cell:
    |projection - 1| < abs_tolerance, volume fraction, its state, the state of its neighbour. *)
Record ncell := mkNCell { selected : bool; n_alpha : R; n_q : nat -> R; neighbor_q : nat -> R }.
Definition ReduceTotalVolume_normal (cell_volume : R) (blocks : list (list (list ncell))) : R :=
  sum (map (fun rank => sum (map (fun tile => sum (map (fun c => if selected c then cell_volume else 0) tile)) rank)) blocks).
Definition AverageStates_normal (cell_volume : R) (blocks : list (list (list ncell))) (comp : nat) : R :=
  sum (map (fun rank => sum (map (fun tile => sum (map (fun c =>
    if (if Rlt_dec 0 (n_alpha c) then true else false) && selected c then
      cell_volume / ReduceTotalVolume_normal cell_volume blocks * (n_alpha c * n_q c comp + (1 - n_alpha c) * neighbor_q c comp)
    else 0) tile)) rank)) blocks).

(** ** States: perfect gas in [n] dimensions; components: 0 density, 1..n momentum, n+1 energy, then species *)
Definition density (s : nat -> R) : R := s 0%nat.
Fixpoint momentum_sq (n : nat) (s : nat -> R) : R := match n with O => 0 | S n' => momentum_sq n' s + s n * s n end.
Definition energy (n : nat) (s : nat -> R) : R := s (S n).

(** src/equations/PerfectGas.cpp:97-110 (CompleteFromCons): the pressure *)
Definition pressure (n : nat) (gamma_minus_1_inv : R) (s : nat -> R) : R :=
  (energy n s - 1 / 2 * momentum_sq n s / density s) / gamma_minus_1_inv.

(** include/fub/AMReX/multi_block/MultiBlockBoundary2.hpp:188-207 (ReduceStateDimension), 209-229 (EmbedState): from [n] to one
    dimension and back; equal species and passive scalars.  MultiBlockBoundary.cpp:233-252 is the same for IdealGasMix. *)
Definition ReduceStateDimension (n : nat) (s : nat -> R) : nat -> R :=
  fun k => match k with 0%nat => s 0%nat | 1%nat => s 1%nat | S (S k') => s (S n + k')%nat end.
Definition EmbedState (n : nat) (s : nat -> R) : nat -> R :=
  fun k => if Nat.eqb k 0 then s 0%nat else if Nat.eqb k 1 then s 1%nat else if Nat.leb k n then 0 else s (k - n + 1)%nat.

(** MultiBlockBoundary.cpp:451-460 and 492-500 (MultiBlockBoundary2.hpp:255-277, 289-299): a ghost cell keeps its old state if the
    new density is not positive. *)
Definition complete_ghost (f : (nat -> R) -> nat -> R) (old : option (nat -> R)) (s : nat -> R) : option (nat -> R) :=
  if Rlt_dec 0 (density s) then Some (f s) else old.

(** ** Fluxes at a connection: src/AMReX/multi_block/MultiBlockIntegratorContext2.cpp:418-500, 502-552
    (MultiBlockIntegratorContext.cpp:466-547, 549-603) *)

(** ::amrex::FabType of a tile *)
Inductive fabtype := regular | singlevalued | covered.

(** A face of a tile perpendicular to x: index along x, area fraction, fluxes *)
Record pface := mkFace { face_x : Z; area : R; fx : nat -> R }.

(** MultiBlockIntegratorContext2.cpp:420-430 (GetBoundary): face index of the connection; [box] is the mirror box of the plenum,
    its cell indices are used as indices of faces. *)
Definition GetBoundary (box : Z * Z) (side : nat) : Z := if Nat.eqb side 0 then fst box else snd box.

(** MultiBlockIntegratorContext2.cpp:432-487 (AverageFlux_); [tiles]: ranks, tiles.  [None]: the buffer keeps its zeros. *)
Definition weight (type : fabtype) (f : pface) : R := match type with regular => 1 | singlevalued => area f | covered => 0 end.
Definition on_boundary (b : Z) (value : fabtype -> pface -> R) (tiles : list (list (fabtype * list pface))) : R :=
  sum (map (fun rank => sum (map (fun tile => sum (map (fun f => if Z.eqb (face_x f) b then value (fst tile) f else 0) (snd tile))) rank)) tiles).
Definition AverageFlux (box : Z * Z) (side : nat) (tiles : list (list (fabtype * list pface))) (comp : nat) : R :=
  let b := GetBoundary box side in
  let total_area := on_boundary b weight tiles in
  if Rlt_dec 0 total_area then on_boundary b (fun t f => weight t f * fx f comp) tiles / total_area else 0.

(** MultiBlockIntegratorContext2.cpp:518-549: face index of the tube which gets the average (cells lo..hi have the faces lo..hi+1),
    and the components; [n] is AMREX_SPACEDIM. *)
Definition tube_face (tube_box : Z * Z) (side : nat) : Z := if Nat.eqb side 0 then (snd tube_box + 1)%Z else fst tube_box.
Definition tube_flux (n : nat) (average : nat -> R) : nat -> R :=
  fun k => match k with 0%nat => average 0%nat | 1%nat => average 1%nat | S (S k') => average (n + 1 + k')%nat end.

(** ** Which ghost data are renewed *)

(** include/fub/AMReX/multi_block/MultiBlockBoundary.hpp:49-62: a connection, by the numbers of its tube and plenum *)
Record connection := mkConn { tube : nat; plenum : nat }.

(** MultiBlockGriddingAlgorithm2.hpp:95-108: the conditions of block [id] for one level, as positions in the list of connections;
    [of] is [tube] or [plenum]. *)
Definition conditions (of : connection -> nat) (conns : list connection) (id : nat) : list nat :=
  filter (fun k => match nth_error conns k with Some c => Nat.eqb (of c) id | None => false end) (seq 0 (length conns)).

(** MultiBlockIntegratorContext2.cpp:630-683 (ComputeMultiBlockBoundaryData): the pairs (condition, connection whose blocks are
    used) for block [id]; zip stops at the end of the shorter list.  MultiBlockIntegratorContext2.cpp:223-250 uses the same zip. *)
Fixpoint zip {A B} (l : list A) (m : list B) : list (A * B) :=
  match l, m with a :: l', b :: m' => (a, b) :: zip l' m' | _, _ => [] end.
Definition renewed (of : connection -> nat) (conns : list connection) (id : nat) : list (nat * connection) :=
  map (fun p => (snd p, fst p)) (filter (fun p => Nat.eqb (of (fst p)) id) (zip conns (conditions of conns id))).

(** MultiBlockIntegratorContext.cpp:229-236: the first version, one list of boundaries beside the list of connections *)
Definition renewed_first_version (conns : list connection) : list (nat * connection) := zip (seq 0 (length conns)) conns.

(** MultiBlockIntegratorContext2.cpp:378-398 (ComputeStableDt); [None] is infinity, the value of a block is
    [None] if it has no such level. *)
Definition min_dt (a b : option R) : option R :=
  match a, b with Some x, Some y => Some (Rmin x y) | Some x, None => Some x | None, b => b end.
Definition ComputeStableDt (along_x : bool) (tubes plena : list (option R)) : option R :=
  fold_left min_dt plena (if along_x then fold_left min_dt tubes None else None).

(** MultiBlockIntegratorContext2.cpp:34-54: numbers of blocks in a copy of a context *)
Definition copy_blocks {T P} (tubes : list T) (plena : list P) : list T * list P :=
  (firstn (Nat.min (length tubes) (length tubes)) tubes, firstn (Nat.min (length tubes) (length plena)) plena).
