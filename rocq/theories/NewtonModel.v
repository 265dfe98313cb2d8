(** include/fub/NewtonIteration.hpp *)
From Coq Require Import Reals ZArith Bool.
Local Open Scope R_scope.

(** A double which user code returns: a finite value (a real number, rounding is not modelled), an infinity or
    NaN. *)
Inductive dbl := Fin (r : R) | PInf | NInf | NaN.

(** std::abs(v) > tolerance; false for NaN (lines 33-34) *)
Definition abs_gt (v : dbl) (tol : R) : bool :=
  match v with Fin r => if Rlt_dec tol (Rabs r) then true else false | PInf | NInf => true | NaN => false end.
(** v > tolerance (line 43) *)
Definition gt (v : dbl) (tol : R) : bool :=
  match v with Fin r => if Rlt_dec tol r then true else false | PInf => true | NInf | NaN => false end.

(** next = x - fx / dfx, lines 36-37; None stands for a value which is infinite or NaN, for which next - next is
    NaN and the comparison in line 38 true.  A finite value divided by an infinity is zero. *)
Definition next_value (x : R) (fx dfx : dbl) : option R :=
  match fx, dfx with
  | Fin a, Fin b => if Req_EM_T b 0 then None else Some (x - a / b)
  | Fin a, PInf | Fin a, NInf => Some x
  | _, _ => None
  end.

(** Line 38 *)
Definition next_x (x : R) (next : option R) : R :=
  match next with
  | None => 1 / 2 * x
  | Some n => if Rlt_dec n 0 then 1 / 2 * x else n
  end.

(** The loop of lines 34-42; counter < max_iterations is kept as the number of iterations which are left.
    Result: x, fx and the number of iterations left. *)
Fixpoint newton_loop (f Df : R -> dbl) (tol : R) (todo : nat) (x : R) (fx : dbl) : R * dbl * nat :=
  match todo with
  | O => (x, fx, O)
  | S k => if abs_gt fx tol
           then let x' := next_x x (next_value x fx (Df x)) in newton_loop f Df tol k x' (f x')
           else (x, fx, todo)
  end.

Inductive newton_result := Returned (x : R) | Thrown (x : R).

(** Lines 28-52.  A negative max_iterations performs no iteration and is not equal to the counter. *)
Definition NewtonIteration (f Df : R -> dbl) (x0 tol : R) (max_iterations : Z) : newton_result :=
  let '(x, fx, todo) := newton_loop f Df tol (Z.to_nat max_iterations) x0 (f x0) in
  if (0 <=? max_iterations)%Z && Nat.eqb todo 0 && gt fx tol then Thrown x else Returned x.
