(** Memory layouts of probes: from the states gathered at probes to the entries of a file.
    Sources: src/AMReX/cutcell/PatchHierarchy.cpp:1010-1062 (called G below; the version without embedded boundaries, src/AMReX/PatchHierarchy.cpp:692-745, is the same),
    src/AMReX/cutcell/output/PerfectGasProbesOutput.cpp (P), include/fub/core/mdspan.hpp. One process; sums over processes are in Hdf5Model.v. *)
From Coq Require Import List Reals Arith.
Import ListNotations.
Local Open Scope nat_scope.

(** A buffer of doubles, std::vector<double> in G:1017 and P:54, as a function of the position *)
Definition buffer := nat -> R.
(** An assignment through a view, G:1037, 1053 and P:60 *)
Definition assign (b : buffer) (a : nat) (v : R) : buffer := fun j => if j =? a then v else b j.

(** fub::mdspan with three extents, layout_left (mdspan.hpp), used for states in G:1019: [n] probes, [m] components *)
Definition left3 (n m k comp level : nat) : nat := k + n * (comp + m * level).
(** basic_mdspan with the default layout_right, used for ProbesView in P:29-30: [n] probes *)
Definition right2 (n d i : nat) : nat := d * n + i.
(** Datasets of HDF5 are stored by rows: the entry (f, p, 0) of a dataset with extents (n_fields, n_probes, 1), P:88-97 and 158-164, and (d, p) of coordinates, P:109-114 *)
Definition h5_entry (b : buffer) (n_probes f p : nat) : R := b (f * n_probes + p).

(** G:1020-1043: the assignments of the loop over levels, cells and probes; [hits] lists the probe, component and level of each of them in order, with the value *)
Definition GatherLevels (n m : nat) (hits : list (nat * nat * nat * R)) : buffer :=
  fold_left (fun b h => let '(k, comp, level, v) := h in assign b (left3 n m k comp level) v) hits (fun _ => 0%R).

(** G:1050-1056: the body of the loop over levels, [cells] are the pairs of component and probe in order *)
Definition FillLevel (n m level : nat) (cells : list (nat * nat)) (b : buffer) : buffer :=
  fold_left (fun b ci => let '(comp, i) := ci in
    if Req_EM_T (b (left3 n m i comp level)) 0 then assign b (left3 n m i comp level) (b (left3 n m i comp (level - 1))) else b) cells b.

(** G:1049-1057: levels 1 to nlevel - 1 *)
Definition FillLevels (n m nlevel : nat) (b : buffer) : buffer :=
  fold_left (fun b level => FillLevel n m level (list_prod (seq 0 m) (seq 0 n)) b) (seq 1 (nlevel - 1)) b.

(** G:1010-1062 [GatherStates]: the part of the buffer for the finest level *)
Definition GatherStates (n m nlevel : nat) (hits : list (nat * nat * nat * R)) : buffer :=
  let states := FillLevels n m nlevel (GatherLevels n m hits) in
  fun j => states (left3 n m 0 0 (nlevel - 1) + j).

(** P:55-63: the coordinates of all probes with [rank] axes, [xs] is the option *)
Definition ProbeCoordinates (rank : nat) (xs : list (nat -> R)) : buffer :=
  fold_left (fun b ix => fold_left (fun b d => assign b (right2 (length xs) d (fst ix)) (snd ix d)) (seq 0 rank) b) (combine (seq 0 (length xs)) xs) (fun _ => 0%R).
