(** Model of the source term which triggers detonations.
    Sources: src/AMReX/IgniteDetonation.cpp, include/fub/AMReX/IgniteDetonation.hpp,
    src/equations/IdealGasMix.cpp:142-165.  Doubles and durations are real numbers. *)
From Coq Require Import List ZArith Reals Bool.
Import ListNotations.
Local Open Scope R_scope.

(** IgniteDetonation.hpp:44-52 (the channel name is left out) *)
Record ignite_options := mkIgniteOptions {
  measurement_position : R;
  equivalence_ratio_criterium : R;
  temperature_low : R;
  temperature_high : R;
  ramp_width : R;
  ignite_position : R;
  offset : R;
  ignite_interval : R
}.

(** std::numeric_limits<double>::min(), the smallest positive normal double 2^-1022 (IgniteDetonation.cpp:63) *)
Definition dbl_min : R := powerRZ 2 (-1022).

(** IgniteDetonation.cpp:57-63: one time point for each level *)
Definition initial_times (levels : nat) : list R := repeat dbl_min levels.

(** IgniteDetonation.cpp:121-128 [GetNextIgnitionTimePoint]; a level out of range (undefined behaviour) reads 0 *)
Definition GetNextIgnitionTimePoint (o : ignite_options) (times : list R) (level : nat) : R :=
  let last := nth level times 0 in
  if Rlt_dec last (offset o) then offset o else last + ignite_interval o.

(** IgniteDetonation.cpp:130-134 [SetLastIgnitionTimePoint] *)
Fixpoint SetLastIgnitionTimePoint (times : list R) (level : nat) (t : R) : list R :=
  match times, level with
  | [], _ => []
  | _ :: r, O => t :: r
  | x :: r, S l => x :: SetLastIgnitionTimePoint r l t
  end.

(** IgniteDetonation.cpp:149-152: [moles] of hydrogen and oxygen *)
Definition equivalence_ratio (h2 o2 : R) : R :=
  if Req_EM_T o2 0 then 0 else 1 / 2 * h2 / o2.

(** IgniteDetonation.cpp:136-219 [AdvanceLevel]: level, time point of the level and measured equivalence ratio; returns
    whether the mixture is ignited and the new time points *)
Definition advance (o : ignite_options) (times : list R) (level : nat) (current ratio : R) : bool * list R :=
  let next := GetNextIgnitionTimePoint o times level in
  if Rlt_dec next current then
    if Rlt_dec (equivalence_ratio_criterium o) ratio then (true, SetLastIgnitionTimePoint times level next)
    else (false, times)
  else (false, times).

(** A history of calls: which of them ignite, and the time points afterwards (the state of the object,
    IgniteDetonation.hpp:109-123). *)
Fixpoint run_calls (o : ignite_options) (times : list R) (calls : list (nat * R * R)) : list bool * list R :=
  match calls with
  | [] => ([], times)
  | (level, current, ratio) :: rest =>
      let '(fired, times1) := advance o times level current ratio in
      let '(fs, times2) := run_calls o times1 rest in
      (fired :: fs, times2)
  end.

(** ** The measurement *)

(** A cell with its lower and upper end and its moles (hydrogen, oxygen), IgniteDetonation.cpp:86-103 *)
Record mcell := mkMCell { lo : R; hi : R; mh2 : R; mo2 : R }.

(** IgniteDetonation.cpp:93-103: one process visits its cells (ghost cells included); the last match is kept; the moles found
    before, on finer levels, are kept if there is no match ([local_moles] lives outside of the loop, 78) *)
Definition local_moles (x : R) (cells : list mcell) (old : R * R) : bool * (R * R) :=
  fold_left (fun acc c => if Rle_dec (lo c) x then if Rlt_dec x (hi c) then (true, (mh2 c, mo2 c)) else acc else acc)
            cells (false, old).

(** MPI_Allreduce with MPI_SUM of the two entries, IgniteDetonation.cpp:107-113 *)
Definition sum_moles (ms : list (R * R)) : R * R :=
  fold_right (fun m acc => (fst m + fst acc, snd m + snd acc)) (0, 0) ms.

(** IgniteDetonation.cpp:79-117: the levels from the finest to the coarsest; a level is a list of processes with their cells *)
Fixpoint gather (x : R) (levels : list (list (list mcell))) (olds : list (R * R)) : R * R :=
  match levels with
  | [] => (0, 0)
  | l :: rest =>
      let res := map (fun pc => local_moles x (fst pc) (snd pc)) (combine l olds) in
      if existsb fst res then sum_moles (map snd res) else gather x rest (map snd res)
  end.

(** IgniteDetonation.cpp:72-119 [GatherMoles_] for n processes; [levels] from coarse to fine *)
Definition GatherMoles (x : R) (n : nat) (levels : list (list (list mcell))) : R * R :=
  gather x (rev levels) (repeat (0, 0) n).

(** ** The ignition *)

(** A cell: density, momentum, temperature, mass fractions.  Pressure, energy, etc. are functions of these
    (IdealGasMix.cpp:150-165). *)
Record gas_cell := mkGasCell { g_rho : R; g_momentum : R; g_T : R; g_Y : list R }.

(** std::clamp, IgniteDetonation.cpp:147,156 *)
Definition clamp (v l h : R) : R := if Rlt_dec v l then l else if Rlt_dec h v then h else v.

(** IgniteDetonation.cpp:143-146, 156: [dx_2] is a whole cell *)
Definition ignite_at (o : ignite_options) (dom_lo dom_hi dx : R) : R := clamp (ignite_position o) (dom_lo + dx) (dom_hi - dx).

(** IgniteDetonation.cpp:165-197: one cell with centre x.  [burn rho T Y] is the composition after the reactor advanced for one
    second (FlameMasterReactor::Advance, not modelled).  The velocity passed to CompleteFromReactor is its default, zero
    (IdealGasMix.hpp:150-152, IdealGasMix.cpp:152-153). *)
Definition ignite_cell (burn : R -> R -> list R -> list R) (o : ignite_options) (x_ignite x : R) (c : gas_cell) : gas_cell :=
  let width := ramp_width o in
  if Rlt_dec x (x_ignite - width) then
    mkGasCell (g_rho c) (g_rho c * 0) (g_T c) (burn (g_rho c) 2000 (g_Y c))
  else if (if Rle_dec (x_ignite - width) x then if Rlt_dec x x_ignite then true else false else false) then
    let d := (x_ignite - x) / width in
    let T := d * temperature_low o + (1 - d) * temperature_high o in
    mkGasCell (g_rho c) (g_rho c * 0) (Rmax (g_T c) T) (g_Y c)
  else if (if Rle_dec x_ignite x then if Rlt_dec x (x_ignite + width) then true else false else false) then
    let d := (x - x_ignite) / width in
    let T := d * temperature_low o + (1 - d) * temperature_high o in
    mkGasCell (g_rho c) (g_rho c * 0) (Rmax (g_T c) T) (g_Y c)
  else c.
