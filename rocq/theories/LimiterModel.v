(** Slope limiters and the MUSCL-Hancock method. *)
From Coq Require Import List ZArith Reals.
From Verif Require Import FluxModel.
Import ListNotations.
Local Open Scope R_scope.

(** ** Limiters of MusclHancockMethod.hpp: slope from the two one-sided differences *)

(** include/fub/flux_method/MusclHancockMethod.hpp:31-43 (NoLimiter). *)
Definition NoLimiter (sL sR : R) : R := 1 / 2 * (sL + sR).

(** MusclHancockMethod.hpp:70-76 (NoGradient). *)
Definition NoGradient (sL sR : R) : R := 0.

(** MusclHancockMethod.hpp:92-108 (MinMod). *)
Definition MinMod (sL sR : R) : R :=
  if Rlt_dec 0 sR then Rmax 0 (Rmin sL sR) else Rmin 0 (Rmax sL sR).

(** MusclHancockMethod.hpp:137-142 (VanLeer::operator()). *)
Definition VanLeer (sL sR : R) : R :=
  let c := 2 * sL * sR in
  if Rlt_dec 0 c then c / (sL + sR) else 0.

(** ComputeLimitedSlope of one component for three cells (MusclHancockMethod.hpp:33-43, 94-108, 152-162). *)
Definition LimitedSlope (limiter : R -> R -> R) (qL qM qR : R) : R := limiter (qM - qL) (qR - qM).

(** ComputeLimitedSlope with a mask, one lane (MusclHancockMethod.hpp:56-68, 122-134, 164-175). *)
Definition LimitedSlope_masked (limiter : R -> R -> R) (mask : bool) (qL qM qR : R) : R :=
  let sL := if mask then qM - qL else 0 in
  let sR := if mask then qR - qM else 0 in
  limiter sL sR.

(** ** Limiters of Gradient.hpp: functions of the ratio of one-sided differences *)

(** include/fub/flux_method/Gradient.hpp:31-34 (NoLimiter2). *)
Definition NoLimiter2 (r : R) : R := 1.

(** Gradient.hpp:36-39 (UpwindLimiter). *)
Definition UpwindLimiter (r : R) : R := 0.

(** Gradient.hpp:41-50 (MinModLimiter). *)
Definition MinModLimiter (r : R) : R :=
  let two_over_one_plus_R := 2 / (1 + r) in
  Rmin two_over_one_plus_R (r * two_over_one_plus_R).

(** Gradient.hpp:52-59 (VanLeerLimiter). *)
Definition VanLeerLimiter (r : R) : R := 4 * r / ((1 + r) * (1 + r)).

(** Gradient.hpp:219-227 (CentralDifferenceGradient::ComputeGradient). *)
Definition CentralDifference (limiter : R -> R) (sL sR : R) : R :=
  if Rle_dec (sL * sR) 0 then 0 else 1 / 2 * limiter (sR / sL) * (sL + sR).

(** Gradient.hpp:211-217 (array version), one lane. *)
Definition CentralDifference_lane (limiter : R -> R) (sL sR : R) : R :=
  if Rlt_dec 0 (sL * sR) then 1 / 2 * limiter (sR / sL) * (sL + sR) else 0.

(** ** MUSCL-Hancock *)
Section Muscl.
Variables (S K : Type).
Variable cons : S -> K -> R.                 (* AsCons *)
Variable flux : S -> K -> R.                 (* Flux(equation_, ...) *)
Variable CompleteFromCons : (K -> R) -> S.   (* CompleteFromCons(equation_, ...) *)
Variable base : S -> S -> K -> R.            (* flux_method_.ComputeNumericFlux of two states *)
Variable limiter : R -> R -> R.              (* SlopeLimiter of one component *)

(** The reconstructed and evolved state at the right ([right = true], MusclHancockMethod.hpp:305-326) or left
    side (331-353) of a cell [q] with slopes [slope]. *)
Definition MusclState (right : bool) (lambda_half : R) (q : S) (slope : K -> R) : S :=
  let q_left := CompleteFromCons (fun k => cons q k - 1 / 2 * slope k) in
  let q_right := CompleteFromCons (fun k => cons q k + 1 / 2 * slope k) in
  CompleteFromCons (fun k => (if right then cons q_right k else cons q_left k)
                             + lambda_half * (flux q_left k - flux q_right k)).

(** MusclHancockMethod.hpp:294-356 (ComputeNumericFlux with a stencil of four cells). *)
Definition MusclFlux (dt dx : R) (s0 s1 s2 s3 : S) : K -> R :=
  let lambda_half := 1 / 2 * dt / dx in
  let slope_left := fun k => LimitedSlope limiter (cons s0 k) (cons s1 k) (cons s2 k) in
  let slope_right := fun k => LimitedSlope limiter (cons s1 k) (cons s2 k) (cons s3 k) in
  base (MusclState true lambda_half s1 slope_left) (MusclState false lambda_half s2 slope_right).

(** MusclHancockMethod.hpp:358-417 (ComputeNumericFlux with two cells and given gradients). *)
Definition MusclFlux_gradients (dt dx : R) (s0 s1 : S) (g0 g1 : K -> R) : K -> R :=
  let lambda_half := 1 / 2 * dt / dx in
  base (MusclState true lambda_half s0 (fun k => g0 k * dx)) (MusclState false lambda_half s1 (fun k => g1 k * dx)).

(** MusclHancockMethod.hpp:487-571 (ComputeNumericFlux with cut cells), one lane with an open face.  Lanes
    with a closed face are the business of the masked base method and are not modelled. *)
Definition MusclFlux_masked_open (dt dx : R) (v0 v1 v2 v3 : R) (s0 s1 s2 s3 : S) : K -> R :=
  let lambda_half := 1 / 2 * dt / dx in
  let pos := fun v => if Rlt_dec 0 v then true else false in
  let left_slope_mask := (pos v0 && pos v1 && pos v2)%bool in
  let right_slope_mask := (pos v1 && pos v2 && pos v3)%bool in
  let slope_left := fun k => LimitedSlope_masked limiter left_slope_mask (cons s0 k) (cons s1 k) (cons s2 k) in
  let slope_right := fun k => LimitedSlope_masked limiter right_slope_mask (cons s1 k) (cons s2 k) (cons s3 k) in
  base (MusclState true lambda_half s1 slope_left) (MusclState false lambda_half s2 slope_right).

End Muscl.

(** The method for a scalar equation with flux [f] and Godunov's method with Riemann solver [rp] as base
    (defaults of MusclHancockMethod.hpp:189-193); the state is its only conserved component. *)
Definition ScalarMuscl (f : R -> R) (rp : R -> R -> R) (limiter : R -> R -> R) (dt dx s0 s1 s2 s3 : R) : R :=
  MusclFlux R unit (fun q _ => q) (fun q _ => f q) (fun q => q tt) (fun l r _ => GodunovFlux f rp l r) limiter
    dt dx s0 s1 s2 s3 tt.

(** One step of a patch with stencil width two (GetStencilWidth, MusclHancockMethod.hpp:206; loop over faces
    include/fub/flux_method/FluxMethod.hpp:200-215). *)
Definition muscl_step (f : R -> R) (rp : R -> R -> R) (limiter : R -> R -> R) (dx : R) (n : Z) (u : Z -> R) (dt : R)
  : Z -> R :=
  let g := transmissive n u in
  fv_update dt dx (fun i => ScalarMuscl f rp limiter dt dx (g (i - 2)%Z) (g (i - 1)%Z) (g i) (g (i + 1)%Z)) g.

Definition muscl_steps (f : R -> R) (rp : R -> R -> R) (limiter : R -> R -> R) (dx : R) (n : Z) (dts : list R)
    (u : Z -> R) : Z -> R := fold_left (muscl_step f rp limiter dx n) dts u. (* any number of steps *)
