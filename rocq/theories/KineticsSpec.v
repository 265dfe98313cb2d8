(** Vocabulary for C40 and C41. *)
From Coq Require Import List Reals.
From Verif Require Import KineticsModel.
Import ListNotations.
Local Open Scope R_scope.

(** A composition: fractions which are not negative and add up to one. *)
Definition composition (X : list R) : Prop := Forall (fun x => 0 <= x) X /\ fold_right Rplus 0 X = 1.

(** Mass fractions of a cell: those of the stored species and the remainder. *)
Definition fractions_of (q : mix) : list R :=
  map (fun y => y / x_rho q) (x_Y q) ++ [1 - fold_right Rplus 0 (map (fun y => y / x_rho q) (x_Y q))].

(** A cell of positive density and pressure whose stored values fit together:
    E = 1/2 Msq |m|^2 / rho + p / (gamma - 1) and whose species are a composition. *)
Definition consistent (eq : mix_eq) (q : mix) : Prop :=
  1 < e_gamma eq /\ e_gm1 eq = e_gamma eq - 1 /\ e_gm1_inv eq = / (e_gamma eq - 1) /\
  0 < x_rho q /\ 0 < x_p q /\ composition (fractions_of q) /\
  x_E q = e_Msq eq * (1 / 2 * fold_right (fun m s => m * m + s) 0 (x_mom q) / x_rho q) + x_p q / (e_gamma eq - 1).

(** Options whose rates are not negative: the argument of the logarithm is in (0, 1]. *)
Definition sane_options (o : ign_options) : Prop :=
  0 < Yign o / Yinit o / tau o <= 1 /\ 0 <= R2_A o.
