(** Model of the source term of axial symmetry.
    Source: src/AMReX/cutcell/AxiSymmetricSourceTerm.cpp; boost::numeric::odeint (runge_kutta4, integrate_const) is modelled from its
    documentation: classical Runge-Kutta method, equidistant steps while the end time is not passed.
    Doubles are real numbers. *)
From Coq Require Import List Reals Bool.
Local Open Scope R_scope.

(** The conservative variables of one cell in the order of state_buffer, AxiSymmetricSourceTerm.cpp:55-64: density, axial and radial
    momentum, energy; the species are a function of their number *)
Record axi := mkAxi { a_rho : R; a_ma : R; a_mr : R; a_E : R; a_sp : nat -> R }.

(** AxiSymmetricSourceTerm.cpp:71-88: the right-hand side; [pressure] is what equation.CompleteFromCons computes (line 75) *)
Definition rhs (pressure : axi -> R) (r : R) (U : axi) : axi :=
  let rho := a_rho U in
  let rhoH := a_E U + pressure U in
  let u := a_mr U / rho in
  let v := a_ma U / rho in
  mkAxi (- rho * u / r) (- rho * u * v / r) (- rho * u * u / r) (- rhoH * u / r) (fun s => - rho * a_sp U s * u / r).

(** y + h k, the vector operations of odeint's algebra used at AxiSymmetricSourceTerm.cpp:68-89 *)
Definition axpy (h : R) (k y : axi) : axi :=
  mkAxi (a_rho y + h * a_rho k) (a_ma y + h * a_ma k) (a_mr y + h * a_mr k) (a_E y + h * a_E k) (fun s => a_sp y s + h * a_sp k s).

(** runge_kutta4::do_step for an equation that does not depend on time (AxiSymmetricSourceTerm.cpp:68) *)
Definition rk4 (f : axi -> axi) (h : R) (y : axi) : axi :=
  let k1 := f y in
  let k2 := f (axpy (h / 2) k1 y) in
  let k3 := f (axpy (h / 2) k2 y) in
  let k4 := f (axpy h k3 y) in
  axpy (h / 6) k4 (axpy (h / 3) k3 (axpy (h / 3) k2 (axpy (h / 6) k1 y))).

(** integrate_const (AxiSymmetricSourceTerm.cpp:69-89) from 0 to [tend] with step h: while (less_eq_with_sign(time + h, tend, h)); time after k steps
    is k h; the tolerance of one machine epsilon in the comparison is left out.  None: more than [fuel] steps *)
Fixpoint integrate_const (fuel : nat) (f : axi -> axi) (tend h : R) (k : nat) (y : axi) : option (axi * nat) :=
  if (if Rlt_dec 0 h then (if Rle_dec (INR k * h + h) tend then true else false) else (if Rle_dec tend (INR k * h + h) then true else false)) then
    match fuel with O => None | S fuel' => integrate_const fuel' f tend h (S k) (rk4 f h y) end
  else Some (y, k).

(** AxiSymmetricSourceTerm.cpp:67: std::min(dt, r / u); r / 0 is infinite *)
Definition step_size (r dt u : R) : R := if Req_EM_T u 0 then dt else if Rlt_dec (r / u) dt then r / u else dt.

(** What happens to one cell: the exception of AxiSymmetricSourceTerm.cpp:91-94, the stored state together with the number of
    Runge-Kutta steps (line 98), or no end within the given number of steps *)
Inductive cell_result := Stored (U : axi) (steps : nat) | Threw | Unfinished.

(** AxiSymmetricSourceTerm.cpp:60-99 for one cell with the volume fraction alpha at the radius r; the assertions of lines 96-97 are not
    modelled, their claim on the pressure is C96_perfect_gas *)
Definition AdvanceCell (fuel : nat) (pressure : axi -> R) (alpha r dt : R) (U : axi) : cell_result :=
  if Rlt_dec 0 alpha then
    if Rlt_dec 0 r then
      match integrate_const fuel (rhs pressure r) dt (step_size r dt (a_mr U / a_rho U)) 0 U with
      | None => Unfinished
      | Some (V, k) => if Rle_dec (a_rho V) 0 then Threw else Stored V k
      end
    else Stored U O
  else Stored U O.

