(** Model of the source term of diffusion in one space dimension.
    Sources: include/fub/AMReX/DiffusionSourceTerm.hpp, src/HyperbolicPatchIntegrator.cpp, src/AMReX/DiffusionSourceTerm.cpp.
    Doubles are real numbers.  The row of cells is a function of the index of the cell (C18 covers the processing in chunks). *)
From Coq Require Import List ZArith Reals Bool.
Import ListNotations.
Local Open Scope R_scope.

(** Conservative state of PerfectGasMix in one dimension (PerfectGasMix.hpp); species and passive scalars are functions of their number, as
    all of them are treated alike *)
Record cell := mkCell { rho : R; mom : R; energy : R; species : nat -> R; passive : nat -> R }.

(** DiffusionSourceTerm.hpp:37-46 *)
Record options := mkOptions { mul : R; reynolds : R; schmidt : R; prandtl : R }.
(** DiffusionSourceTerm.hpp:42-45: the default values *)
Definition default_options : options := mkOptions 3 (1 / (3 / 1000)) 1 1.

(** DiffusionSourceTerm.hpp:94-116 [Constants], only the members that are used *)
Record constants := mkConstants { four_three_mu_effective : R; mu_Pr_effective : R; mu_Sc_effective : R }.
(** DiffusionSourceTerm.hpp:95-105 *)
Definition Constants (o : options) : constants :=
  let schmidt_invers := 1 / schmidt o in
  let reynolds_invers := 1 / reynolds o in
  let prandtl_invers := 1 / prandtl o in
  mkConstants (4 / 3 * mul o * reynolds_invers) (mul o * reynolds_invers * prandtl_invers) (mul o * reynolds_invers * schmidt_invers).

(** DiffusionSourceTerm.hpp:48-120: the object; the equation is represented by its gamma *)
Record term := mkTerm { options_ : options; constants_ : constants; gamma : R }.
(** DiffusionSourceTerm.hpp:116, 122-125 *)
Definition construct (g : R) (o : options) : term := mkTerm o (Constants o) g.
(** DiffusionSourceTerm.hpp:61-62: the copy constructor initialises only the equation, the other members get their default values *)
Definition copy (other : term) : term := mkTerm default_options (Constants default_options) (gamma other).
(** DiffusionSourceTerm.hpp:244-251 [Enthalpy] *)
Definition Enthalpy (g : R) (q : cell) (rhoinvers : R) : R :=
  (g * energy q - g * (1 / 2) * mom q * mom q * rhoinvers) * rhoinvers.

(** DiffusionSourceTerm.hpp:253-280 [ComputeDiffusionFlux]; density and passive scalars of the flux are not written, they keep the
    zeros of the constructor (StateArray.hpp:140-160) *)
Definition ComputeDiffusionFlux (tm : term) (dxinv : R) (l r : cell) : cell :=
  let c := constants_ tm in
  let rhoinvL := 1 / rho l in
  let rhoinvR := 1 / rho r in
  let uL := mom l * rhoinvL in
  let uR := mom r * rhoinvR in
  let u := 1 / 2 * (uL + uR) in
  let du_dx := (uR - uL) * dxinv in
  let hL := Enthalpy (gamma tm) l rhoinvL in
  let hR := Enthalpy (gamma tm) r rhoinvR in
  let dh_dx := (hR - hL) * dxinv in
  mkCell 0 (- four_three_mu_effective c * du_dx)
    (- (four_three_mu_effective c * u * du_dx + mu_Pr_effective c * dh_dx))
    (fun s => - mu_Sc_effective c * ((species r s * rhoinvR - species l s * rhoinvL) * dxinv))
    (fun _ => 0).

(** DiffusionSourceTerm.hpp:190-233 [ComputeDiffusionFluxes]: face i lies between the cells i - 1 and i *)
Definition ComputeDiffusionFluxes (tm : term) (dxinv : R) (q : Z -> cell) (i : Z) : cell :=
  ComputeDiffusionFlux tm dxinv (q (i - 1)%Z) (q i).

(** HyperbolicPatchIntegrator.cpp:43-60, 78 [UpdateConservatively] for all components *)
Definition UpdateConservatively (q f : Z -> cell) (dt dx : R) (i : Z) : cell :=
  let lambda := dt / dx in
  let a := q i in let l := f i in let r := f (i + 1)%Z in
  mkCell (rho a + lambda * (rho l - rho r)) (mom a + lambda * (mom l - mom r)) (energy a + lambda * (energy l - energy r))
    (fun s => species a s + lambda * (species l s - species r s)) (fun s => passive a s + lambda * (passive l s - passive r s)).

(** DiffusionSourceTerm.hpp:127-188 [AdvanceLevel] on a level with the cells 0 .. n-1; [bc] fills the cells outside (physical boundary).
    The recomputation of pressure and speed of sound does not change the conservative variables. *)
Definition AdvanceLevel (tm : term) (bc : (Z -> cell) -> Z -> cell) (n : Z) (dx dt : R) (scratch : Z -> cell) : Z -> cell :=
  let dxinv := 1 / dx in
  let fluxes := ComputeDiffusionFluxes tm dxinv scratch in
  let aux := bc (UpdateConservatively scratch fluxes (1 / 2 * dt) dx) in
  let fluxes2 := ComputeDiffusionFluxes tm dxinv aux in
  bc (fun i => if ((0 <=? i) && (i <? n))%Z then UpdateConservatively scratch fluxes2 dt dx i else scratch i).

(** DiffusionSourceTerm.hpp:235-242 [ComputeStableDt]: numeric_limits<double>::max(), no bound *)
Definition ComputeStableDt : option R := None.
