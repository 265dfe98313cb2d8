(** Vocabulary for C157. *)
From Coq Require Import List Reals.
Import ListNotations.
Local Open Scope R_scope.

(** The mean of values weighted with volumes *)
Definition total (l : list (R * R)) : R := fold_right (fun x s => fst x + s) 0 l.
Definition weighted (l : list (R * R)) : R := fold_right (fun x s => fst x * snd x + s) 0 l.
(** The enthalpy of a flow with velocity u at rest: gamma / (gamma - 1) p / rho + u^2 / 2 *)
Definition total_enthalpy (gamma rho p u : R) : R := gamma / (gamma - 1) * (p / rho) + u * u / 2.
(** Two gases have the same entropy: p / rho^gamma is the same *)
Definition same_entropy (gamma rho p rho' p' : R) : Prop := p' / Rpower rho' gamma = p / Rpower rho gamma.
