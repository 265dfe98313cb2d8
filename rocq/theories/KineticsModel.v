(** Reaction steps of PerfectGasMix: src/equations/perfect_gas_mix/IgnitionDelayKinetics.cpp and
    src/equations/perfect_gas_mix/ArrheniusKinetics.cpp with the conversions they use.  One lane of the arrays;
    doubles are real numbers.  Eigen's exp and pow are exp and Rpower. *)
From Coq Require Import List Reals Bool.
From Verif Require Import GasModel.
Import ListNotations.
Local Open Scope R_scope.

(** PerfectGasMix.hpp:300-330: the constants of the equation (gamma_minus_one_inv is an independent member) *)
Record mix_eq := mkEq { e_gamma : R; e_gm1_inv : R; e_gm1 : R; e_Msq : R }.
(** One lane of CompleteArray<PerfectGasMix>, PerfectGasMix.hpp:60-112 *)
Record mix := mkMix { x_rho : R; x_mom : list R; x_E : R; x_Y : list R; x_S : list R; x_p : R; x_a : R }.
(** One lane of KineticStateArray, PerfectGasMix.hpp:114-121; mole_fractions has n_species + 1 rows (336-337) *)
Record kin := mkKin { k_rho : R; k_T : R; k_X : list R; k_S : list R }.

(** .colwise().sum() *)
Definition rsum (l : list R) : R := fold_right Rplus 0 l.

(** PerfectGasMix.hpp:747-768 with Temperature, PerfectGasMix.cpp:205-209 *)
Definition KineticStateFromComplete (q : mix) : kin :=
  let X := map (fun y => Rmax (y / x_rho q) 0) (x_Y q) in
  let sum := rsum X in
  let X := X ++ [Rmax (1 - sum) 0] in
  let sum := rsum X in
  mkKin (x_rho q) (x_p q / x_rho q) (map (fun x => x / sum) X) (map (fun s => s / x_rho q) (x_S q)).

(** PerfectGasMix.hpp:714-737 with InternalEnergy of a kinetic state (382-397); species 0 .. n_species - 1 are all
    mole fractions but the last one *)
Definition CompleteFromKineticState (eq : mix_eq) (k : kin) (u : list R) : mix :=
  let rho := k_rho k in
  let mom := map (fun v => rho * v) u in
  let e := e_gm1_inv eq * k_T k in
  let RT := k_T k in
  let sum := rsum (k_X k) in
  mkMix rho mom (rho * e + e_Msq eq * KineticEnergy rho mom)
        (map (fun x => rho * x / sum) (removelast (k_X k)))
        (map (fun s => rho * s) (k_S k)) (RT * rho) (sqrt (e_gamma eq * RT)).

(** PerfectGasMix.cpp:176-190 *)
Definition MixVelocity (q : mix) : list R := map (fun m => m / x_rho q) (x_mom q).

(** PerfectGasMix.cpp:110-128 *)
Definition MixCompleteFromCons (eq : mix_eq) (q : mix) : mix :=
  let p := (x_E q - e_Msq eq * KineticEnergy (x_rho q) (x_mom q)) * e_gm1 eq in
  mkMix (x_rho q) (x_mom q) (x_E q) (x_Y q) (x_S q) p (sqrt (e_gamma eq * p / x_rho q)).

(** X.row(i) = v *)
Fixpoint set_row (i : nat) (v : R) (l : list R) : list R :=
  match l, i with
  | [], _ => []
  | _ :: r, O => v :: r
  | x :: r, S j => x :: set_row j v r
  end.
Definition row (i : nat) (l : list R) : R := nth i l 0.
(** .max(0.0).min(1.0) *)
Definition unit_clamp (x : R) : R := Rmin (Rmax x 0) 1.

(** ** Ignition delay *)

(** IgnitionDelayKinetics.hpp:82-113 *)
Record ign_options := mkIgn
  { Yign : R; Yinit : R; tau : R; R_B : R; R_C : R; R_E : R; R2_A : R; R2_C : R; R2_E : R; o_E : R; o_C : R; Tdiff : R }.

(** Lines 55-61 *)
Definition ign_rate (o : ign_options) (T : R) : R :=
  let lambda := - ln (Yign o / Yinit o / tau o) in
  lambda + Rpower T (R_B o) * exp (R_C o * (1 - R_E o / T)) + R2_A o * exp (R2_C o * (1 - R2_E o / T)).

(** Lines 62-83: mole fractions and temperature after the step *)
Definition ign_react (o : ign_options) (dt T : R) (X : list R) : list R * R :=
  let Fdiff := (1 - exp (- ign_rate o T * dt)) * row 0 X in
  let Xrow0a := row 0 X - Fdiff in
  let Xrow1a := unit_clamp (row 1 X + Fdiff) in
  let X := set_row 1 Xrow1a (set_row 0 Xrow0a X) in
  let rate2 := exp (o_C o * (1 - o_E o / T)) in
  let coeff := if Rle_dec (row 0 X) (Yign o * (1 - row 2 X)) then 1 - exp (- rate2 * dt) else 0 in
  let FRdiff1 := coeff * row 1 X in
  let Xrow1b := row 1 X - FRdiff1 in
  let Xrow2b := unit_clamp (row 2 X + FRdiff1) in
  let X := set_row 2 Xrow2b (set_row 1 Xrow1b X) in
  let FRdiff0 := coeff * row 0 X in
  let Xrow0c := row 0 X - FRdiff0 in
  let Xrow2c := unit_clamp (row 2 X + FRdiff0) in
  let X := set_row 2 Xrow2c (set_row 0 Xrow0c X) in
  (X, T + Tdiff o * (FRdiff0 + FRdiff1)).

(** Lines 46-87 *)
Definition ign_Advance (eq : mix_eq) (o : ign_options) (dt : R) (q : mix) : mix :=
  let k := KineticStateFromComplete q in
  let '(X, T) := ign_react o dt (k_T k) (k_X k) in
  CompleteFromKineticState eq (mkKin (k_rho k) T X (k_S k)) (MixVelocity q).

(** ** Arrhenius *)

(** ArrheniusKinetics.hpp:50-58 *)
Record arr_options := mkArr { a_Q : R; a_EA : R; a_B : R; T_switch : R }.
(** sqrt(DBL_EPSILON) = sqrt(2^-52) = 2^-26, ArrheniusKinetics.cpp:64 *)
Definition arr_eps : R := / 67108864.

(** Lines 67-74 *)
Definition arr_dX (o : arr_options) (dt T : R) (X : list R) : R :=
  let rate := exp (a_EA o * (1 - 1 / T)) in
  let Xnew := if Rle_dec (1 / 100000) (row 0 X) then row 0 X * exp (- a_B o * dt * rate) else arr_eps in
  if Rle_dec (T_switch o) T then Xnew - row 0 X else arr_eps.
(** Lines 75-76 *)
Definition arr_react (dX : R) (X : list R) : list R :=
  let X := set_row 0 (row 0 X + dX) X in set_row 1 (row 1 X - dX) X.

(** Lines 54-85 *)
Definition arr_Advance (eq : mix_eq) (o : arr_options) (dt : R) (q : mix) : mix :=
  let k := KineticStateFromComplete q in
  let dX := arr_dX o dt (k_T k) (k_X k) in
  let q' := CompleteFromKineticState eq (mkKin (k_rho k) (k_T k) (arr_react dX (k_X k)) (k_S k)) (MixVelocity q) in
  MixCompleteFromCons eq
    (mkMix (x_rho q') (x_mom q') (x_E q' + - a_Q o * x_rho q' * dX) (x_Y q') (x_S q') (x_p q') (x_a q')).

(** ** Rows *)

(** IgnitionDelayKinetics.cpp:97-116, ArrheniusKinetics.cpp:95-114: chunks of [w] lanes; the remaining n < w cells are
    loaded into the first n lanes of the same array, whose other lanes keep their content [stale]
    (LoadN, StateArray.hpp:368-394), and the first n lanes are stored.  None: the loop did not finish. *)
Fixpoint chunk_rows {A : Type} (fuel w : nat) (f : A -> A) (stale l : list A) : option (list A) :=
  match fuel with
  | O => None
  | S k => if Nat.leb w (length l)
           then let lanes := map f (firstn w l) in
                match chunk_rows k w f lanes (skipn w l) with
                | Some r => Some (lanes ++ r)
                | None => None
                end
           else Some (firstn (length l) (map f (l ++ skipn (length l) stale)))
  end.
Definition AdvanceRow {A : Type} (w : nat) (f : A -> A) (stale l : list A) : option (list A) :=
  chunk_rows (S (length l)) w f stale l.
