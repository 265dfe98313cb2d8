(** Model of the conservative update and of the chunked (SIMD) loops over rows.
    Sources: src/HyperbolicPatchIntegrator.cpp, src/AMReX/TimeIntegrator.cpp,
    include/fub/flux_method/FluxMethod.hpp, include/fub/StateArray.hpp, include/fub/ext/Vc.hpp.
    Memory maps element numbers (see ArrayModel.v) to values; [None] is an element that is not allocated.
    Doubles are real numbers. *)
From Coq Require Import List ZArith Reals Bool.
From Verif Require Import ArrayModel.
Import ListNotations.
Local Open Scope Z_scope.

(** the doubles a program may access; an access to [None] is undefined behaviour.  Used for every pointer of
    src/HyperbolicPatchIntegrator.cpp:38-42 *)
Definition memory := Z -> option R.

(** Outcome of a loop: finished, undefined behaviour, or still running when the given number of iterations
    is used up (HyperbolicPatchIntegrator.cpp:44, FluxMethod.hpp:275, StateRow.hpp:184) *)
Inductive outcome := Finished (m : memory) | Undefined | Running.

(** reading [p[0] .. p[n-1]]; StateArray.hpp:370-393 [LoadN] for one component, and the vector loads
    HyperbolicPatchIntegrator.cpp:45-47 *)
Fixpoint load (m : memory) (p : Z) (n : nat) : option (list R) :=
  match n with
  | O => Some []
  | S n' => match m p, load m (p + 1) n' with Some x, Some r => Some (x :: r) | _, _ => None end
  end.

(** the assignment [*p = v] as in HyperbolicPatchIntegrator.cpp:102 *)
Definition set (m : memory) (p : Z) (v : R) : memory := fun a => if Z.eqb a p then Some v else m a.

(** writing [p[0] .. p[n-1]]; StateArray.hpp:490-513 [StoreN] for one component, and the vector stores
    HyperbolicPatchIntegrator.cpp:49, 58 *)
Fixpoint store (m : memory) (p : Z) (vs : list R) : option memory :=
  match vs with
  | [] => Some m
  | v :: r => match m p with None => None | Some _ => store (set m p v) (p + 1) r end
  end.

(** loading all components of all stencil cells (one pointer each): FluxMethod.hpp:276-278, 287-289;
    HyperbolicPatchIntegrator.cpp:45-47, 54-56 *)
Fixpoint loads (m : memory) (ps : list Z) (n : nat) : option (list (list R)) :=
  match ps with
  | [] => Some []
  | p :: r => match load m p n, loads m r n with Some x, Some xs => Some (x :: xs) | _, _ => None end
  end.

(** storing all components of the result: FluxMethod.hpp:280, 291; StateArray.hpp:443-456 [Store];
    HyperbolicPatchIntegrator.cpp:49, 58 *)
Fixpoint stores (m : memory) (ps : list Z) (vs : list (list R)) : option memory :=
  match ps, vs with
  | p :: r, v :: vr => match store m p v with Some m' => stores m' r vr | None => None end
  | _, _ => Some m
  end.

(** the pointer increments HyperbolicPatchIntegrator.cpp:30-32, 50 [AdvanceBy] and FluxMethod.hpp:281-284 *)
Definition advance_by (n : Z) (ps : list Z) : list Z := map (fun p => p + n) ps.

(** A row processed in chunks of [width] elements: the loop while n >= width and the masked remainder.
    HyperbolicPatchIntegrator.cpp:43-58 and FluxMethod.hpp:270-291 are this scheme for particular kernels.
    [kernel] maps the vectors of the sources to the vectors of the results, every vector has [width] lanes;
    [stale] are the values in the lanes that a masked load does not write: zeros in Vc, values of earlier
    chunks in Eigen arrays.  All components of a state are passed as separate pointers (in the code the
    pointers of vector valued components are computed from one pointer and a stride). *)
Section Chunks.
Context (width : nat) (kernel : list (list R) -> list (list R)) (stale : nat -> list R).

(** one round of the loop (n = width) or the masked remainder (n < width) *)
Definition process (m : memory) (dests srcs : list Z) (n : nat) : option memory :=
  match loads m srcs n with
  | Some vs => stores m dests (map (firstn n) (kernel (map (fun v => v ++ stale n) vs)))
  | None => None
  end.

(** HyperbolicPatchIntegrator.cpp:43-58; [last] is the end pointer of the first destination *)
Fixpoint chunk_loop (fuel : nat) (m : memory) (last : Z) (dests srcs : list Z) : outcome :=
  match fuel with
  | O => Running
  | S fuel' =>
      let n := last - nthZ dests 0 in
      if Z.of_nat width <=? n then
        match process m dests srcs width with
        | Some m' => chunk_loop fuel' m' last (advance_by (Z.of_nat width) dests) (advance_by (Z.of_nat width) srcs)
        | None => Undefined
        end
      else
        match process m dests srcs (Z.to_nat n) with
        | Some m' => Finished m'
        | None => Undefined
        end
  end.

(** StateRow.hpp:171-221 with the loop body of FluxMethod.hpp:264-292 or HyperbolicPatchIntegrator.cpp:79-83:
    the rows are processed one after the other.  The first [ndest] views are the results. *)
Fixpoint process_rows (fuel : nat) (ndest : nat) (m : memory) (calls : list (list row)) : outcome :=
  match calls with
  | [] => Finished m
  | rows :: rest =>
      let ps := map fst rows in
      match chunk_loop fuel m (nthZ ps 0 + match rows with r :: _ => snd r | [] => 0 end)
              (firstn ndest ps) (skipn ndest ps) with
      | Finished m' => process_rows fuel ndest m' rest
      | o => o
      end
  end.

(** ForEachRow(views, kernel) *)
Definition for_each_row (fuel : nat) (ndest rank : nat) (m : memory) (views : list PatchDataView) : outcome :=
  match ForEachRow fuel rank views with
  | LoopDone calls => process_rows fuel ndest m calls
  | LoopRunning _ => Running
  end.

End Chunks.

(** HyperbolicPatchIntegrator.cpp:48, 57: [prev + dt_over_dx * (fL - fR)] on vectors *)
Definition update_kernel (dt_dx : R) (vs : list (list R)) : list (list R) :=
  match vs with
  | [prev; fL; fR] =>
      [map2 (fun p d => p + dt_dx * d)%R prev (map2 (fun a b => a - b)%R fL fR)]
  | _ => []
  end.

(** HyperbolicPatchIntegrator.cpp:63-85 [UpdateConservatively_(SimdTag)].  [rank] is Rank - 1, the number of
    space directions.  [width] is Vc::Vector<double>::size(). *)
Definition UpdateConservatively_simd (fuel width : nat) (stale : nat -> list R) (rank : nat) (m : memory)
  (next prev fluxes : PatchDataView) (dt dx : R) (dir : nat) : outcome :=
  fold_left
    (fun o comp =>
       match o with
       | Finished m =>
           let n := SliceLast next comp in
           let p := SliceLast prev comp in
           let facesL := pdv_box next in
           let facesR := Grow facesL dir (-1, 1) in
           let fL := SliceLast (Subview fluxes facesL) comp in
           let fR := SliceLast (Subview fluxes facesR) comp in
           let dt_dx := (dt / dx)%R in
           for_each_row width (update_kernel dt_dx) stale fuel 1 rank m [n; p; fL; fR]
       | o => o
       end)
    (zrange 0 (nthZ (map_extents (md_map (pdv_span next))) rank)) (Finished m).

(** HyperbolicPatchIntegrator.cpp:87-104 [UpdateConservatively_(SequentialTag)] *)
Definition UpdateConservatively_seq (m : memory) (next prev fluxes : PatchDataView) (dt dx : R) (dir : nat) : outcome :=
  let dt_dx := (dt / dx)%R in
  ForEachIndex (pdv_box next)
    (fun is o =>
       match o with
       | Finished m =>
           let cell := is in
           let fL := is in
           let fR := Shift fL dir 1 in
           match m (pdv_at prev cell), m (pdv_at fluxes fL), m (pdv_at fluxes fR), m (pdv_at next cell) with
           | Some U_prev, Some f_left, Some f_right, Some _ =>
               Finished (set m (pdv_at next cell) (U_prev + dt_dx * (f_left - f_right))%R)
           | _, _, _, _ => Undefined
           end
       | o => o
       end)
    (Finished m).

(** ** src/AMReX/TimeIntegrator.cpp:28-58, one fab *)

(** amrex::surroundingNodes(box, d), amrex::enclosedCells(box) of a box of faces in direction d and
    [AsIndexBox] (half open boxes instead of closed ones), TimeIntegrator.cpp:40-45.  The loaded AMReX
    functions are modelled from their documentation. *)
Definition surroundingNodes (b : IndexBox) (d : nat) : IndexBox := Grow b d (0, 1).
(** TimeIntegrator.cpp:44 *)
Definition enclosedCells (b : IndexBox) (d : nat) : IndexBox := Shrink b d (0, 1).

(** TimeIntegrator.cpp:38-46: the cells that are updated *)
Definition forward_flux_box (tilebox all_fluxes_box : IndexBox) (d : nat) : IndexBox :=
  Intersect (surroundingNodes tilebox d) all_fluxes_box.
(** TimeIntegrator.cpp:44 *)
Definition forward_cell_box (tilebox all_fluxes_box : IndexBox) (d : nat) : IndexBox :=
  enclosedCells (forward_flux_box tilebox all_fluxes_box d) d.

(** TimeIntegrator.cpp:36-57 with the sequential tag.  [state] is the fab of dest and src (TimeIntegrator.cpp:
    60-68 passes the same data for both). *)
Definition ForwardIntegrator_fab (m : memory) (state flux : PatchDataView) (tilebox all_fluxes_box : IndexBox)
  (n_cons : Z) (dt dx : R) (dir : nat) : outcome :=
  let flux_box := forward_flux_box tilebox all_fluxes_box dir in
  let cells := Embed (forward_cell_box tilebox all_fluxes_box dir) (0, n_cons) in
  let nv := Subview state cells in
  let pv := Subview state cells in
  let faces := Embed flux_box (0, n_cons) in
  let fv := Subview flux faces in
  UpdateConservatively_seq m nv pv fv dt dx dir.

(** ** FluxMethod::ComputeNumericFluxes *)

(** FluxMethod.hpp:200-215 (SequentialTag): [states] are the component views of the states, [fluxes] those of
    the fluxes; [flux] is BaseMethod::ComputeNumericFlux as a function of all components of all stencil cells.
    [width] is GetStencilWidth(). *)
Definition stencil_pointers (states : list PatchDataView) (dir : nat) (width : nat) (face : index) : list Z :=
  flat_map (fun i => map (fun v => pdv_at v (Shift (Shift face dir (- Z.of_nat width)) dir (Z.of_nat i))) states)
           (seq 0 (2 * width)).

(** FluxMethod.hpp:200-215 *)
Definition ComputeNumericFluxes_seq (flux : list R -> list R) (m : memory) (fluxes states : list PatchDataView)
  (dir width : nat) : outcome :=
  match fluxes with
  | [] => Finished m
  | f0 :: _ =>
      ForEachIndex (pdv_box f0)
        (fun face o =>
           match o with
           | Finished m =>
               match loads m (stencil_pointers states dir width face) 1 with
               | Some vs =>
                   match stores m (map (fun v => pdv_at v face) fluxes)
                           (map (fun x => [x]) (flux (map (fun v => nth 0 v 0%R) vs))) with
                   | Some m' => Finished m'
                   | None => Undefined
                   end
               | None => Undefined
               end
           | o => o
           end)
        (Finished m)
  end.

(** FluxMethod.hpp:246-293 (SimdTag): the views of the stencil are sub views of the states shifted against
    each other; [flux_array] is ComputeNumericFlux for arrays, [chunk] is kDefaultChunkSize. *)
Definition stencil_view (fluxbox : IndexBox) (dir width : nat) (i : nat) (v : PatchDataView) : PatchDataView :=
  let cellbox := Grow fluxbox dir (Z.of_nat width, Z.of_nat width - 1) in
  let base := Subview v cellbox in
  Subview base (Shrink (pdv_box base) dir (Z.of_nat i, Z.of_nat (2 * width) - Z.of_nat i - 1)).

(** FluxMethod.hpp:246-293 *)
Definition ComputeNumericFluxes_simd (fuel chunk : nat) (flux_array : list (list R) -> list (list R))
  (stale : nat -> list R) (rank : nat) (m : memory) (fluxes states : list PatchDataView) (dir width : nat) : outcome :=
  match fluxes with
  | [] => Finished m
  | f0 :: _ =>
      let views := flat_map (fun i => map (stencil_view (pdv_box f0) dir width i) states) (seq 0 (2 * width)) in
      for_each_row chunk flux_array stale fuel (length fluxes) rank m (fluxes ++ views)
  end.
