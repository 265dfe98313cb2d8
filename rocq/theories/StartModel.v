(** Model of initial data on patches with embedded boundaries: include/fub/AMReX/cutcell/initial_data/RiemannProblem.hpp, include/fub/AMReX/cutcell/initial_data/PythonData.hpp
    and include/fub/AMReX/initial_data/PythonData.hpp. Doubles are reals. *)
From Coq Require Import String List Reals ZArith.
Import ListNotations.
Local Open Scope R_scope.

(** amrex::FabType of a patch (RiemannProblem.hpp:79, cutcell PythonData.hpp:98) *)
Inductive fab_type := covered | regular | singlevalued.
(** Indices of cells *)
Definition pos := list Z.
(** Store: one cell is overwritten (RiemannProblem.hpp:91, cutcell PythonData.hpp:109) *)
Definition store {A} (data : pos -> A) (i : pos) (s : A) : pos -> A := fun j => if list_eq_dec Z.eq_dec j i then s else data j.
(** FArrayBox::setVal on a box given by its cells (RiemannProblem.hpp:81, cutcell PythonData.hpp:102) *)
Definition setVal {A} (zero : A) (data : pos -> A) (cells : list pos) : pos -> A := fold_left (fun d i => store d i zero) cells data.

(** RiemannProblem::InitializeData, RiemannProblem.hpp:78-109, for one tile given by the cells of its growntilebox in the order of the loop *)
Definition RiemannTile {A X} (t : fab_type) (alpha : pos -> R) (center : pos -> X) (geometry : X -> R) (left_ right_ boundary_ : A) (data : pos -> A) (cells : list pos) : pos -> A :=
  match t with
  | covered => setVal boundary_ data cells
  | regular => fold_left (fun d i => if Rlt_dec (geometry (center i)) 0 then store d i left_ else store d i right_) cells data
  | singlevalued => fold_left (fun d i => if Req_EM_T (alpha i) 0 then store d i boundary_
                                          else if Rlt_dec (geometry (center i)) 0 then store d i left_ else store d i right_) cells data
  end.
(** The tiles of one patch, one after another (ForEachFab; different threads write different tiles) *)
Definition RiemannData {A X} t alpha (center : pos -> X) geometry (left_ right_ boundary_ : A) (tiles : list (list pos)) (data : pos -> A) : pos -> A :=
  fold_left (RiemannTile t alpha center geometry left_ right_ boundary_) tiles data.

(** The reactor of the equation, reduced to what CompleteFromReactor reads: mass fractions, temperature and density *)
Record reactor := { fractions : list R; temperature : R; density : R }.
(** What the code leaves open: the conversion of a string to mass fractions (None is an exception), the density of a gas, and CompleteFromReactor *)
Record gas_model (A : Type) := { parse : string -> option (list R); density_of : list R -> R -> R -> R; complete : reactor -> list R -> A }.
Arguments parse {A}. Arguments density_of {A}. Arguments complete {A}.
(** SetMoleFractions (FlameMasterReactor.cpp:907-917) *)
Definition SetMoleFractions {A} (g : gas_model A) (moles : string) (r : reactor) : option reactor :=
  match parse g moles with Some Y => Some {| fractions := Y; temperature := temperature r; density := density r |} | None => None end.
(** SetTemperature (FlameMasterReactor.cpp:890-893) *)
Definition SetTemperature (T : R) (r : reactor) : reactor := {| fractions := fractions r; temperature := T; density := density r |}.
(** SetPressure (FlameMasterReactor.hpp:240-243) *)
Definition SetPressure {A} (g : gas_model A) (p : R) (r : reactor) : reactor :=
  {| fractions := fractions r; temperature := temperature r; density := density_of g (fractions r) (temperature r) p |}.

(** What the Python function returns; None is an exception *)
Record answer := { ans_T : R; ans_p : R; ans_moles : string; ans_u : list R }.
(** initial_data_fn_, cutcell PythonData.hpp:55-80 and PythonData.hpp:55-80: the state and the reactor afterwards; [py_function] is the option "function" *)
Definition initial_data_fn {A X} (g : gas_model A) (rank : nat) (py_function : option (X -> option answer)) (x : X) (r : reactor) : option (A * reactor) :=
  match py_function with
  | Some function =>
      match function x with
      | None => None
      | Some ret =>
          match SetMoleFractions g (ans_moles ret) r with
          | None => None
          | Some r => let r := SetPressure g (ans_p ret) (SetTemperature (ans_T ret) r) in Some (complete g r (firstn rank (ans_u ret)), r)
          end
      end
  | None =>
      match SetMoleFractions g "O2:21,N2:79"%string r with
      | None => None
      | Some r => let r := SetPressure g 101325 (SetTemperature 300 r) in Some (complete g r (repeat 0 rank), r)
      end
  end.
(** The loop over the cells of a tile, cutcell PythonData.hpp:105-110 (skip = false) and 113-122 (skip = true: covered cells get [boundary]) *)
Fixpoint PythonCells {A X} (g : gas_model A) rank (py : option (X -> option answer)) (skip : bool) (alpha : pos -> R) (center : pos -> X) (boundary : A) (cells : list pos)
  (data : pos -> A) (r : reactor) : option ((pos -> A) * reactor) :=
  match cells with
  | [] => Some (data, r)
  | i :: cells =>
      if (if skip then if Req_EM_T (alpha i) 0 then true else false else false) then PythonCells g rank py skip alpha center boundary cells (store data i boundary) r
      else match initial_data_fn g rank py (center i) r with
           | None => None
           | Some (s, r) => PythonCells g rank py skip alpha center boundary cells (store data i s) r
           end
  end.
(** InitializeData, cutcell PythonData.hpp:97-124, for the tiles of one patch: the cells of the tilebox and of the growntilebox. The version without embedded
    boundaries, PythonData.hpp:90-99, is the one for regular patches. *)
Fixpoint PythonData {A X} (g : gas_model A) rank (py : option (X -> option answer)) (t : fab_type) (alpha : pos -> R) (center : pos -> X) (boundary : A) (tiles : list (list pos * list pos))
  (data : pos -> A) (r : reactor) : option ((pos -> A) * reactor) :=
  match tiles with
  | [] => Some (data, r)
  | (tilebox, growntilebox) :: tiles =>
      match (match t with
             | covered => Some (setVal boundary data growntilebox, r)
             | regular => PythonCells g rank py false alpha center boundary tilebox data r
             | singlevalued => PythonCells g rank py true alpha center boundary tilebox data r
             end) with
      | None => None
      | Some (data, r) => PythonData g rank py t alpha center boundary tiles data r
      end
  end.
