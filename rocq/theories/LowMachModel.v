(** Model of the solver for nearly incompressible flow: advection with given fluxes, forward and backward Euler steps for pressure and rotation.
    Sources (paths relative to /repo):
    - src/equations/CompressibleAdvection.cpp, include/fub/equations/CompressibleAdvection.hpp
    - src/AMReX/solver/BK19LevelIntegrator.cpp
    - src/AMReX/MLMG/MLNodeHelmDualCstVel.cpp, MLNodeHelmDualCstVel_2D_K.cpp
    - include/fub/solver/DimensionalSplitLevelIntegrator.hpp
    Simplified: one level with periodic boundaries.  The patches and their ghost cells are a single array over all pairs of integers, which repeats itself
    (what FillBoundary and FillGhostLayerSingleLevel establish); no node is masked, since there are no Dirichlet boundaries.
    Debug output, counters and options of the linear solver are left out. *)
From Coq Require Import List Reals ZArith Bool.
From Verif Require Import SplitModel.
Import ListNotations.
Local Open Scope R_scope.

(** One component of a MultiFab *)
Definition field := Z -> Z -> R.

(** CompressibleAdvection.hpp:40-45, 69-74 for two dimensions *)
Record cell := mkCell { density : R; momentum0 : R; momentum1 : R; PTdensity : R; PTinverse : R }.
(** CompressibleAdvection.hpp:40-45: the flux *)
Record cons := mkCons { f_density : R; f_momentum0 : R; f_momentum1 : R; f_PTdensity : R }.

(** CompressibleAdvection.cpp:28-42 *)
Definition LimitSlopes (qL qM qR : R) : R :=
  let sL := qM - qL in
  let sR := qR - qM in
  1 / 2 * (sL + sR).

(** CompressibleAdvection.cpp:165 *)
Definition upwind_sign (Pv : R) : R := if Rlt_dec 0 Pv then 1 else if Rlt_dec Pv 0 then -1 else 0.

(** CompressibleAdvection.cpp:107-177: the flux from four cells and the inner three elements of Pvs *)
Definition ComputeNumericFlux (q0 q1 q2 q3 : cell) (Pv1 Pv2 Pv3 dt dx : R) : cons :=
  let slope_chi_L := LimitSlopes (PTinverse q0) (PTinverse q1) (PTinverse q2) / dx in
  let slope_chi_R := LimitSlopes (PTinverse q1) (PTinverse q2) (PTinverse q3) / dx in
  let velocity (m : cell -> R) (q : cell) := m q / density q in
  let slope_velocity_L m := LimitSlopes (velocity m q0) (velocity m q1) (velocity m q2) / dx in
  let slope_velocity_R m := LimitSlopes (velocity m q1) (velocity m q2) (velocity m q3) / dx in
  let v_advect1 := 1 / 2 * (Pv1 + Pv2) / PTdensity q1 in
  let v_advect2 := 1 / 2 * (Pv2 + Pv3) / PTdensity q2 in
  let lambda := dt / dx in
  let rec_chi_L := PTinverse q1 + 1 / 2 * dx * slope_chi_L * (1 - v_advect1 * lambda) in
  let rec_chi_R := PTinverse q2 - 1 / 2 * dx * slope_chi_R * (1 + v_advect2 * lambda) in
  let rec_velocity_L m := velocity m q1 + 1 / 2 * dx * slope_velocity_L m * (1 - v_advect1 * lambda) in
  let rec_velocity_R m := velocity m q2 - 1 / 2 * dx * slope_velocity_R m * (1 + v_advect2 * lambda) in
  let upwind := upwind_sign Pv2 in
  let f_momentum m :=
    Pv2 * (1 / 2) * ((1 + upwind) * rec_chi_L * rec_velocity_L m + (1 - upwind) * rec_chi_R * rec_velocity_R m) in
  mkCons (Pv2 * (1 / 2) * ((1 + upwind) * rec_chi_L + (1 - upwind) * rec_chi_R)) (f_momentum momentum0) (f_momentum momentum1) Pv2.

(** The cells of the level: BK19LevelIntegrator.cpp:552, context.GetScratch(level) *)
Record level := mkLevel { l_density : field; l_momentum0 : field; l_momentum1 : field; l_PTdensity : field; l_PTinverse : field }.
Definition at_cell (l : level) (i j : Z) : cell :=
  mkCell (l_density l i j) (l_momentum0 l i j) (l_momentum1 l i j) (l_PTdensity l i j) (l_PTinverse l i j).

(** include/fub/core/mdspan.hpp, include/fub/PatchDataView.hpp [Shift]: the index moved in direction X (true) or Y (false) *)
Definition shift (x : bool) (k i j : Z) : Z * Z := if x then (i + k, j)%Z else (i, j + k)%Z.
Definition get {A : Type} (f : Z -> Z -> A) (p : Z * Z) : A := f (fst p) (snd p).

(** CompressibleAdvection.cpp:179-208: the flux at a face; the face (i, j) lies before the cell (i, j) *)
Definition flux_at (l : level) (Pv : field) (dt dx : R) (dir : bool) (i j : Z) : cons :=
  ComputeNumericFlux (get (at_cell l) (shift dir (-2) i j)) (get (at_cell l) (shift dir (-1) i j)) (get (at_cell l) (shift dir 0 i j))
    (get (at_cell l) (shift dir 1 i j)) (get Pv (shift dir (-1) i j)) (get Pv (shift dir 0 i j)) (get Pv (shift dir 1 i j)) dt dx.

(** CompressibleAdvection.hpp:107-112 [CompleteFromCons] for all cells *)
Definition CompleteFromCons (r m0 m1 P : field) : level := mkLevel r m0 m1 P (fun i j => r i j / P i j).

(** HyperbolicPatchIntegrator.cpp:88-104 [UpdateConservatively], then CompleteFromCons: DimensionalSplitLevelIntegrator.hpp:245-255 *)
Definition sweep (Pv : field) (dx dt : R) (dir : bool) (l : level) : level :=
  let update (q : field) (F : cons -> R) : field := fun i j =>
    q i j + dt / dx * (F (flux_at l Pv dt dx dir i j) - F (get (flux_at l Pv dt dx dir) (shift dir 1 i j))) in
  CompleteFromCons (update (l_density l) f_density) (update (l_momentum0 l) f_momentum0) (update (l_momentum1 l) f_momentum1)
    (update (l_PTdensity l) f_PTdensity).

(** CompressibleAdvection.cpp:86-105 [ComputeStableDt] for the cells in a list; [lowest] and [maximum] are numeric_limits<double>::lowest() and max() *)
Definition advect_velocity (l : level) (Pv : field) (dir : bool) (c : Z * Z) : R :=
  let '(i, j) := c in 1 / 2 * (Pv i j + get Pv (shift dir 1 i j)) / l_PTdensity l i j.
Definition stable_dt_fab (lowest maximum : R) (l : level) (Pv : field) (dx : R) (dir : bool) (cells : list (Z * Z)) : R :=
  let max_signal := fold_left (fun s c => Rmax s (Rabs (advect_velocity l Pv dir c))) cells lowest in
  if Rlt_dec 0 max_signal then dx / max_signal else maximum.

(** CompressibleAdvection.cpp:61-83: one fab after the other *)
Definition stable_dt (lowest maximum : R) (l : level) (Pv : field) (dx : R) (dir : bool) (fabs : list (list (Z * Z))) : R :=
  fold_left (fun min_dt cells => Rmin (stable_dt_fab lowest maximum l Pv dx dir cells) min_dt) fabs maximum.

(** CompressibleAdvection.cpp:61-83 with threads: line 81 reads min_dt and writes it back; the iteration [k] computes [local k].
    The state is min_dt and what every iteration has read. *)
Inductive access := Read (k : nat) | Write (k : nat).
Definition run_access (local : nat -> R) (a : access) (s : R * (nat -> R)) : R * (nat -> R) :=
  match a with
  | Read k => (fst s, fun k' => if Nat.eqb k' k then fst s else snd s k')
  | Write k => (Rmin (local k) (snd s k), snd s)
  end.
Definition run_threads (local : nat -> R) (maximum : R) (schedule : list access) : R :=
  fst (fold_left (fun s a => run_access local a s) schedule (maximum, fun _ => 0)).

(** DimensionalSplitLevelIntegrator.hpp:228-263: one split step; the fabs of the level are [fabs] *)
Definition split_step (lowest maximum : R) (fabs : list (list (Z * Z))) (Pv : bool -> field) (dx : bool -> R) (dir : bool) : op level :=
  fun split_dt l =>
    let level_dt := stable_dt lowest maximum l (Pv dir) (dx dir) dir fabs in
    if Rlt_dec level_dt split_dt then (l, Some (mkTooLarge level_dt 0))
    else (sweep (Pv dir) (dx dir) split_dt dir l, None).

(** DimensionalSplitLevelIntegrator.hpp:221-275, BK19LevelIntegrator.cpp:260-265: the number of the cycle and the subcycle decide which direction is first *)
Definition advect (lowest maximum : R) (fabs : list (list (Z * Z))) (m : method) (cycle subcycle : nat) (Pv : bool -> field) (dx : bool -> R)
    (dt : R) : level -> level * Result :=
  advance m (map (fun d => split_step lowest maximum fabs Pv dx (Nat.eqb d 0)) (make_split_directions 2 cycle subcycle)) dt.

(** BK19LevelIntegrator.cpp:126-172 [AverageCellToFace_] *)
Definition AverageCellToFace (cells : field) (dir : bool) : field := fun i j =>
  if dir then
    (1 * cells (i - 1)%Z (j - 1)%Z + 1 * cells i (j - 1)%Z + 2 * cells (i - 1)%Z j + 2 * cells i j + 1 * cells (i - 1)%Z (j + 1)%Z + 1 * cells i (j + 1)%Z) * (1 / 8)
  else
    (1 * cells (i - 1)%Z j + 2 * cells i j + 1 * cells (i + 1)%Z j + 1 * cells (i - 1)%Z (j - 1)%Z + 2 * cells i (j - 1)%Z + 1 * cells (i + 1)%Z (j - 1)%Z) * (1 / 8).

(** BK19LevelIntegrator.cpp:176-192 [AverageCellToNode_]; the node (i, j) is the lower corner of the cell (i, j) *)
Definition AverageCellToNode (cells : field) : field := fun i j =>
  1 / 4 * cells (i - 1)%Z (j - 1)%Z + 1 / 4 * cells i (j - 1)%Z + 1 / 4 * cells (i - 1)%Z j + 1 / 4 * cells i j.

(** BK19LevelIntegrator.cpp:194-209 [ComputePvFromScratch_] *)
Definition Pv_cells (l : level) (x : bool) : field := fun i j =>
  l_PTdensity l i j * (if x then l_momentum0 l else l_momentum1 l) i j / l_density l i j.

(** BK19LevelIntegrator.cpp:246-258 [RecomputeAdvectiveFluxes] *)
Definition RecomputeAdvectiveFluxes (l : level) : bool -> field := fun dir => AverageCellToFace (Pv_cells l dir) dir.

(** BK19LevelIntegrator.cpp:211-222 [ComputeKCrossM_] for two dimensions: the two components of k x (a, b) *)
Definition KCross (k2 : R) (a b : field) (x : bool) : field := fun i j => if x then - k2 * b i j else k2 * a i j.

(** BK19LevelIntegrator.hpp:64-85; only the third component of k_vect is used *)
Record parameters := mkParameters { gamma : R; c_p : R; f : R; k2 : R; alpha_p : R; Msq : R }.

(** The state of the linear operator: MLNodeHelmDualCstVel.cpp:111-128 *)
Record linop := mkOp { sigma : field; sigc0 : field; sigc1 : field; alpha : field }.
Definition setSigma (s : field) (o : linop) : linop := mkOp s (sigc0 o) (sigc1 o) (alpha o).
Definition setAlpha (a : field) (o : linop) : linop := mkOp (sigma o) (sigc0 o) (sigc1 o) a.
Definition setSigmaCross (s0 s1 : field) (o : linop) : linop := mkOp (sigma o) s0 s1 (alpha o).

(** MLNodeHelmDualCstVel_2D_K.cpp:342-380 [mlndhelm_adotx_aa] *)
Definition adotx (o : linop) (dx : bool -> R) (x : field) : field := fun i j =>
  let dxinv0 := 1 / dx true in let dxinv1 := 1 / dx false in
  let facx := 1 / 4 * dxinv0 * dxinv0 in
  let facy := 1 / 4 * dxinv1 * dxinv1 in
  let facxy := 1 / 4 * dxinv0 * dxinv1 in
  let fxy := facx + facy in
  let fxmy := facx - facy in
  let fmxy := facy - facx in
  let im := (i - 1)%Z in let ip := (i + 1)%Z in let jm := (j - 1)%Z in let jp := (j + 1)%Z in
  let sig := sigma o in
  let c0 := sigc0 o in let c1 := sigc1 o in
  x im jm * fxy * sig im jm + x ip jm * fxy * sig i jm + x im jp * fxy * sig im j + x ip jp * fxy * sig i j
  + x im j * fxmy * (sig im jm + sig im j) + x ip j * fxmy * (sig i jm + sig i j)
  + x i jm * fmxy * (sig im jm + sig i jm) + x i jp * fmxy * (sig im j + sig i j)
  + x i j * -1 * fxy * (sig im jm + sig i jm + sig im j + sig i j)
  + x im jm * facxy * (c0 im jm + c1 im jm)
  - x ip jm * facxy * (c0 i jm + c1 i jm)
  - x im jp * facxy * (c0 im j + c1 im j)
  + x ip jp * facxy * (c0 i j + c1 i j)
  + x im j * facxy * (- c0 im jm + c0 im j + c1 im jm - c1 im j)
  + x ip j * facxy * (c0 i jm - c0 i j - c1 i jm + c1 i j)
  + x i jm * facxy * (c0 im jm - c0 i jm - c1 im jm + c1 i jm)
  + x i jp * facxy * (- c0 im j + c0 i j + c1 im j - c1 i j)
  + x i j * facxy * (- c0 im jm + c0 i jm + c0 im j - c0 i j - c1 im jm + c1 i jm + c1 im j - c1 i j)
  + x i j * alpha o i j.

(** MLNodeHelmDualCstVel_2D_K.cpp:681-696 [mlndhelm_divu], MLNodeHelmDualCstVel.cpp:130-195 [compDivergence] *)
Definition compDivergence (dx : bool -> R) (vel : bool -> field) : field := fun i j =>
  let facx := 1 / 2 * (1 / dx true) in
  let facy := 1 / 2 * (1 / dx false) in
  let im := (i - 1)%Z in let jm := (j - 1)%Z in
  facx * (- vel true im jm + vel true i jm - vel true im j + vel true i j)
  + facy * (- vel false im jm - vel false i jm + vel false im j + vel false i j).

(** MLNodeHelmDualCstVel.cpp:419-455 [getFluxes], MLNodeHelmDualCstVel_2D_K.cpp:711-719 [mlndhelm_mknewu] *)
Definition getFluxes (o : linop) (dx : bool -> R) (p : field) (x : bool) : field := fun i j =>
  let ip := (i + 1)%Z in let jp := (j + 1)%Z in
  if x then 0 - sigma o i j * (1 / 2 * (1 / dx true)) * (- p i j + p ip j - p i jp + p ip jp)
  else 0 - sigma o i j * (1 / 2 * (1 / dx false)) * (- p i j - p ip j + p i jp + p ip jp).

(** What is left of the linear solver MLMG: from the operator and the right hand side a solution, or an abort *)
Definition solver := linop -> field -> option field.

(** BK19LevelIntegrator.cpp:280-287: the first part of DoEulerBackward_, the momentum *)
Definition rotate_backward (p : parameters) (dt : R) (l : level) : level :=
  let fac1 := - dt * f p in
  let new x (m : field) : field := fun i j =>
    (m i j + fac1 * KCross (k2 p) (l_momentum0 l) (l_momentum1 l) x i j) * (1 / (1 + (dt * f p) ^ 2)) in
  mkLevel (l_density l) (new true (l_momentum0 l)) (new false (l_momentum1 l)) (l_PTdensity l) (l_PTinverse l).

(** BK19LevelIntegrator.cpp:289-311 [diagfac_nodes] *)
Definition diagfac_nodes (p : parameters) (dt : R) (l : level) : field :=
  AverageCellToNode (fun i j => - alpha_p p * Msq p / (gamma p - 1) * Rpower (l_PTdensity l i j) (2 - gamma p) / dt).

(** BK19LevelIntegrator.cpp:313-329 *)
Definition backward_rhs (p : parameters) (dt : R) (dx : bool -> R) (l : level) (pi_old : field) : field := fun i j =>
  compDivergence dx (Pv_cells l) i j + pi_old i j * diagfac_nodes p dt l i j.

(** BK19LevelIntegrator.cpp:345-373: the coefficients of the operator *)
Definition backward_op (p : parameters) (dt : R) (l : level) (o : linop) : linop :=
  let s : field := fun i j => c_p p * dt / (1 + (dt * f p) ^ 2) * l_PTdensity l i j / l_PTinverse l i j in
  let o := setSigma s o in
  let o := if Rlt_dec 0 (alpha_p p) then setAlpha (diagfac_nodes p dt l) o else o in
  setSigmaCross (fun i j => s i j * (1 * dt * f p)) (fun i j => s i j * (-1 * dt * f p)) o.

(** BK19LevelIntegrator.cpp:394-418: the correction of the momentum *)
Definition correct_momentum (p : parameters) (dt : R) (dx : bool -> R) (o : linop) (pi : field) (l : level) : level :=
  let UV := getFluxes o dx pi in
  let fac2 := - dt * f p in
  let UV_correction x : field := fun i j => (UV x i j + fac2 * KCross (k2 p) (UV true) (UV false) x i j) * l_PTinverse l i j in
  mkLevel (l_density l) (fun i j => l_momentum0 l i j + UV_correction true i j) (fun i j => l_momentum1 l i j + UV_correction false i j)
    (l_PTdensity l) (l_PTinverse l).

(** BK19LevelIntegrator.cpp:267-425 [DoEulerBackward_]: the operator keeps its coefficients *)
Definition DoEulerBackward (solve : solver) (p : parameters) (dt : R) (dx : bool -> R) (o : linop) (l : level) (pi_old : field) : option (level * linop * field) :=
  let l := rotate_backward p dt l in
  let o := backward_op p dt l o in
  match solve o (backward_rhs p dt dx l pi_old) with
  | None => None
  | Some pi => Some (correct_momentum p dt dx o pi l, o, pi)
  end.

(** BK19LevelIntegrator.cpp:427-507 [DoEulerForward_] *)
Definition DoEulerForward (p : parameters) (dt : R) (dx : bool -> R) (o : linop) (l : level) (pi : field) : level * linop * field :=
  let UV := Pv_cells l in
  let o := setSigma (fun i j => c_p p * dt * l_PTdensity l i j) o in
  let correction x : field := fun i j =>
    getFluxes o dx pi x i j + - dt * f p * KCross (k2 p) (l_momentum0 l) (l_momentum1 l) x i j in
  let l' := mkLevel (l_density l) (fun i j => l_momentum0 l i j + correction true i j) (fun i j => l_momentum1 l i j + correction false i j)
              (l_PTdensity l) (l_PTinverse l) in
  let dpidP_nodes := AverageCellToNode (fun i j => - dt * (gamma p - 1) / Msq p * Rpower (l_PTdensity l i j) (gamma p - 2)) in
  let pi' : field := fun i j => if Rlt_dec 0 (alpha_p p) then pi i j + compDivergence dx UV i j * dpidP_nodes i j else pi i j in
  (l', o, pi').

(** The end of a step: the cells, the pressure on the nodes and the operator; or a time step which is too large *)
Inductive step_result := Done (l : level) (pi : field) (o : linop) | TooLarge (e : TimeStepTooLarge) | Abort.

(** BK19LevelIntegrator.cpp:543-680 [AdvanceLevelNonRecursively] *)
Definition AdvanceLevel (solve : solver) (p : parameters) (adv : (bool -> field) -> R -> level -> level * Result) (dx : bool -> R) (dt : R)
    (o : linop) (l : level) (pi : field) : step_result :=
  let scratch_aux := l in
  let half_dt := 1 / 2 * dt in
  match adv (RecomputeAdvectiveFluxes l) half_dt l with
  | (_, Some e) => TooLarge e
  | (l1, None) =>
    match DoEulerBackward solve p half_dt dx o l1 pi with
    | None => Abort
    | Some (l2, o, pi_aux) =>
      let pi := if Req_EM_T (alpha_p p) 0 then pi_aux else pi in
      let Pv := RecomputeAdvectiveFluxes l2 in
      let '(l3, o, pi) := DoEulerForward p half_dt dx o scratch_aux pi in
      match adv Pv dt l3 with
      | (_, Some e) => TooLarge e
      | (l4, None) =>
        match DoEulerBackward solve p half_dt dx o l4 pi with
        | None => Abort
        | Some (l5, o, pi_new) => Done l5 pi_new o
        end
      end
    end
  end.

(** BK19LevelIntegrator.cpp:682-702 [InitialProjection]: the pressure on the nodes is not changed *)
Definition InitialProjection (solve : solver) (p : parameters) (dx : bool -> R) (o : linop) (l : level) (pi : field) : option level :=
  let p := mkParameters (gamma p) (c_p p) 0 (k2 p) 0 (Msq p) in
  match DoEulerBackward solve p 1 dx o l pi with
  | None => None
  | Some (l', _, _) => Some l'
  end.

(** MLNodeHelmDualCstVel_2D_K.cpp:314-340 [mlndhelm_adotx_ha]: the operator on coarser grids if harmonic averages are switched on *)
Definition adotx_ha (sx sy : field) (dx : bool -> R) (x : field) : field := fun i j =>
  let facx := 1 / 4 * (1 / dx true) * (1 / dx true) in
  let facy := 1 / 4 * (1 / dx false) * (1 / dx false) in
  let im := (i - 1)%Z in let ip := (i + 1)%Z in let jm := (j - 1)%Z in let jp := (j + 1)%Z in
  x im jm * (facx * sx im jm + facy * sy im jm) + x ip jm * (facx * sx i jm + facy * sy i jm)
  + x im jp * (facx * sx im j + facy * sy im j) + x ip jp * (facx * sx i j + facy * sy i j)
  + x im j * (facx * (sx im jm + sx im j) - facy * (sy im jm + sx im j))
  + x ip j * (facx * (sx i jm + sx i j) - facy * (sy i jm + sx i j))
  + x i jm * (- facx * (sx im jm + sx i jm) + facy * (sy im jm + sy i jm))
  + x i jp * (- facx * (sx im j + sx i j) + facy * (sy im j + sy i j))
  + x i j * -1 * (facx * (sx im jm + sx i jm + sx im j + sx i j) + facy * (sy im jm + sy i jm + sy im j + sy i j)).
