(** Model of the interfaces to the solvers for ordinary differential equations.
    Sources: src/ode_solver/RadauSolver.cpp, src/ode_solver/CVodeSolver.cpp, include/fub/ode_solver/OdeSolver.hpp.
    The Fortran routine radau_ and the library CVODE are arbitrary functions.  Doubles are real numbers. *)
From Coq Require Import List ZArith Reals Bool.
Import ListNotations.
Local Open Scope R_scope.

(** span<double>, OdeSolver.hpp:33-34 *)
Definition vec := list R.
(** OdeSolver.hpp:33-34 [system_type]: the derivative at a time *)
Definition system_type := R -> vec -> vec.

(** ** Radau *)

(** RadauSolver.cpp:38-69: radau_ with the function that evaluates the right-hand side, initial and final time and the vector; it returns
    the code IDID and the vector.  None: the behaviour is undefined, because an evaluation of the right-hand side was. *)
Definition radau_kernel := (R -> vec -> option vec) -> R -> R -> vec -> option (Z * vec).

(** What the parameter IPAR points to: RadauSolver.cpp:194 and 228, 242 *)
Inductive ipar := UserData | SystemObject.

(** RadauSolver.cpp:147-154 [radau_rhs] interprets IPAR as a pointer to IntegrateData_ and follows its first member.  [garbage] is what
    happens if IPAR points to something else (None: undefined behaviour; the compiled program may also do anything else). *)
Definition radau_rhs (garbage : R -> vec -> option vec) (system : system_type) (p : ipar) (t : R) (y : vec) : option vec :=
  match p with UserData => Some (system t y) | SystemObject => garbage t y end.

(** RadauSolver.hpp and RadauSolver.cpp:216-263: the exceptions *)
Inductive radau_error := InputIsNotConsistent | LargerNMaxIsNeeded | StepSizeBecomesTooSmall | MatrixIsRepeatedlySingular | RhsEvaluatesToNaN
  | UnknownCode (idid : Z).

(** How integrate ends: RadauSolver.cpp:139-264 *)
Inductive outcome := Returned (y : vec) | Threw (e : radau_error) | Undefined.

(** RadauSolver.cpp:139-264 [RadauSolver::integrate] (work space, tolerances, feedback and jacobian are left out) *)
Definition radau_integrate (kernel : radau_kernel) (garbage : R -> vec -> option vec) (system : system_type) (y0 : vec) (t0 dt : R) : outcome :=
  let t := t0 + dt in
  match kernel (radau_rhs garbage system UserData) t0 t y0 with
  | None => Undefined
  | Some (idid, y) =>
      if (idid =? 1)%Z then Returned y
      else if (idid =? 2)%Z then Returned y
      else if (idid =? -1)%Z then Threw InputIsNotConsistent
      else if (idid =? -2)%Z then Threw LargerNMaxIsNeeded
      else if (idid =? -3)%Z then
        match kernel (radau_rhs garbage system SystemObject) t0 (t / 2) y with
        | None => Undefined
        | Some (idid1, y1) =>
            if (0 <? idid1)%Z then
              match kernel (radau_rhs garbage system SystemObject) t0 (t / 2) y1 with
              | None => Undefined
              | Some (idid2, y2) => if (0 <? idid2)%Z then Returned y2 else Threw StepSizeBecomesTooSmall
              end
            else Threw StepSizeBecomesTooSmall
        end
      else if (idid =? -4)%Z then Threw MatrixIsRepeatedlySingular
      else if (idid =? -42)%Z then Threw RhsEvaluatesToNaN
      else Threw (UnknownCode idid)
  end.

(** ** CVODE *)

Section CVode.
(** the memory of CVODE (cvode_mem), CVodeSolver.cpp:36-42 *)
Variable memory : Type.

(** CVodeSolver.cpp:127, 130: CVode(cvode_mem, tend, y, &t, mode): code, time reached, vector and memory; the vector y is an output *)
Definition cvode_kernel := bool -> R -> memory -> Z * R * vec * memory.

(** CVodeSolver.cpp:127 and 136: without feedback; the code is dropped *)
Definition cvode_integrate (cvode : cvode_kernel) (init : R -> vec -> memory) (y0 : vec) (t0 dt : R) : vec :=
  let '(_, _, y, _) := cvode false (t0 + dt) (init t0 y0) in y.

(** CVodeSolver.cpp:129-133: the loop with feedback; at most [fuel] iterations, None if this is not enough; the calls of feedback
    are collected *)
Fixpoint cvode_loop (fuel : nat) (cvode : cvode_kernel) (tend t : R) (y : vec) (mem : memory) (calls : list (R * vec))
  : option (vec * list (R * vec)) :=
  if Rlt_dec t tend then
    match fuel with
    | O => None
    | S fuel' => let '(_, t', y', mem') := cvode true tend mem in cvode_loop fuel' cvode tend t' y' mem' (calls ++ [(t', y')])
    end
  else Some (y, calls).

(** CVodeSolver.cpp:122-137 with feedback *)
Definition cvode_integrate_feedback (fuel : nat) (cvode : cvode_kernel) (init : R -> vec -> memory) (y0 : vec) (t0 dt : R)
  : option (vec * list (R * vec)) :=
  cvode_loop fuel cvode (t0 + dt) t0 y0 (init t0 y0) [].
End CVode.
