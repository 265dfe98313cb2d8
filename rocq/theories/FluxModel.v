(** Two-point flux methods: HLL, Godunov with exact Riemann solvers for Burgers and advection, their stable
    time steps, and the 1d conservative update.  doubles are modelled by real numbers. *)
From Coq Require Import List ZArith Reals.
Import ListNotations.
Local Open Scope R_scope.

(** A time step computed as dx / s with dx > 0: IEEE division by zero yields infinity.
    Used for include/fub/flux_method/GodunovMethod.hpp:162-170 and HllMethod.hpp:224-234. *)
Inductive time_step := Finite (t : R) | Infinite.

(** dx / s_max for dx > 0 and s_max >= 0 (GodunovMethod.hpp:169, HllMethod.hpp:233). *)
Definition divide_dt (dx smax : R) : time_step :=
  if Req_EM_T smax 0 then Infinite else Finite (dx / smax).

(** std::accumulate(signals.begin(), signals.end(), 0.0, [](x, y) { return std::max(x, std::abs(y)); })
    (GodunovMethod.hpp:166-168, HllMethod.hpp:229-231). *)
Definition max_abs (signals : list R) : R := fold_left (fun x y => Rmax x (Rabs y)) signals 0.

(** ** HLL *)
Section Hll.
(** [S] is the type of complete states, [K] the conserved components; the equation and the signal speed
    estimate are template arguments (include/fub/flux_method/HllMethod.hpp:33-156). *)
Variables (S K : Type).
Variable cons : S -> K -> R.              (* AsCons(state), component k *)
Variable flux : S -> K -> R.              (* Flux(equation, flux, state, dir), HllMethod.hpp:166-167, 199-200 *)
Variable signal_speeds : S -> S -> R * R. (* signal_speeds_(equation, left, right, dir), HllMethod.hpp:164, 197 *)
Variable CompleteFromCons : (K -> R) -> S. (* CompleteFromCons(equation, complete, cons), HllMethod.hpp:182 *)

(** HllMethod.hpp:161-184 (SolveRiemannProblem). *)
Definition HllRiemann (left right : S) : S :=
  let signals := signal_speeds left right in
  let sL := fst signals in
  let sR := snd signals in
  let ds := if Req_EM_T sL sR then 1 else sR - sL in
  if Rlt_dec 0 sL then left
  else if Rlt_dec sR 0 then right
  else CompleteFromCons (fun k => (sR * cons right k - sL * cons left k + flux left k - flux right k) / ds).

(** sR - sL of HllMethod.hpp:202-205; the assertion FUB_ASSERT(ds > 0) of line 206 is the statement
    [0 < HllDs left right].  The flux below uses Coq's total division, so only theorems which assume or prove
    the assertion say something about the code. *)
Definition HllDs (left right : S) : R :=
  Rmax 0 (snd (signal_speeds left right)) - Rmin 0 (fst (signal_speeds left right)).

(** HllMethod.hpp:191-214 (ComputeNumericFlux, the flux). *)
Definition HllFlux (left right : S) (k : K) : R :=
  let sL := Rmin 0 (fst (signal_speeds left right)) in
  let sR := Rmax 0 (snd (signal_speeds left right)) in
  let sLsR := sL * sR in
  let ds := sR - sL in
  (sR * flux left k - sL * flux right k + sLsR * (cons right k - cons left k)) / ds.

(** HllMethod.hpp:216-221 (ComputeNumericFlux, the returned pressure). *)
Definition HllPressure (pressure : S -> R) (left right : S) : R :=
  let sL := Rmin 0 (fst (signal_speeds left right)) in
  let sR := Rmax 0 (snd (signal_speeds left right)) in
  let ds := sR - sL in
  (sR * pressure left - sL * pressure right) / ds.

(** HllMethod.hpp:224-234 (ComputeStableDt). *)
Definition HllStableDt (dx : R) (left right : S) : time_step :=
  divide_dt dx (max_abs [fst (signal_speeds left right); snd (signal_speeds left right)]).

(** One lane of HllMethod.hpp:260-284 (array ComputeNumericFlux); all operations act lane by lane. *)
Definition HllFlux_lane (left right : S) (k : K) : R :=
  let sL := Rmin (fst (signal_speeds left right)) 0 in
  let sR := Rmax (snd (signal_speeds left right)) 0 in
  let sLsR := sL * sR in
  let ds0 := sR - sL in
  let ds := if Rlt_dec 0 ds0 then ds0 else 1 in
  (sR * flux left k - sL * flux right k + sLsR * (cons right k - cons left k)) / ds.

(** One lane of HllMethod.hpp:294-331 (array ComputeNumericFlux with face fractions).  The masked Flux and
    the masked signal speeds are separate functions of the equation; [masked_flux] and [masked_speeds] are
    their values for this lane. *)
Definition HllFlux_masked_lane (masked_flux : bool -> S -> K -> R) (masked_speeds : bool -> S -> S -> R * R)
    (face_fraction : R) (left right : S) (k : K) : R :=
  let mask := if Rlt_dec 0 face_fraction then true else false in
  let signals := masked_speeds mask left right in
  let sL := Rmin (fst signals) 0 in
  let sR := Rmax (snd signals) 0 in
  let sLsR := sL * sR in
  let ds := sR - sL in
  let safe_ds := if mask then ds else 1 in
  let qL := if mask then cons left k else 0 in
  let qR := if mask then cons right k else 0 in
  (sR * masked_flux mask left k - sL * masked_flux mask right k + sLsR * (qR - qL)) / safe_ds.

End Hll.

(** ** Shallow water: the parts used by HLL *)

(** Components of the state (include/fub/equations/ShallowWater.hpp:34-42). *)
Inductive sw_component := Height | MomentumX | MomentumY.

(** momentum[d] for a direction d (ShallowWater.cpp:28-30). *)
Definition momentum_of (d : bool) : sw_component := if d then MomentumY else MomentumX.

(** src/equations/ShallowWater.cpp:26-35 (Flux).  The code uses the momentum where the velocity should be
    (line 29); this is kept here.  Only the height component matters for the theorems. *)
Definition ShallowWaterFlux (gravity : R) (d : bool) (q : sw_component -> R) (k : sw_component) : R :=
  let velocity := q (momentum_of d) in
  match k with
  | Height => q (momentum_of d)
  | MomentumX => velocity * q MomentumX + (if d then 0 else 1 / 2 * gravity * q Height * q Height)
  | MomentumY => velocity * q MomentumY + (if d then 1 / 2 * gravity * q Height * q Height else 0)
  end.

(** src/equations/ShallowWater.cpp:247-258 (ShallowWaterSignalVelocities). *)
Definition ShallowWaterSignalVelocities (gravity : R) (d : bool) (left right : sw_component -> R) : R * R :=
  let vL := left (momentum_of d) / left Height in
  let sqrt_g_hL := sqrt (gravity * left Height) in
  let vR := right (momentum_of d) / right Height in
  let sqrt_g_hR := sqrt (gravity * right Height) in
  (Rmin (Rmin (vL - sqrt_g_hL) (vR - sqrt_g_hR)) 0, Rmax (Rmax (vL + sqrt_g_hL) (vR + sqrt_g_hR)) 0).

(** ** Burgers *)

(** src/equations/Burgers.cpp:25-28 (Flux). *)
Definition BurgersFlux (u : R) : R := 1 / 2 * u * u.

(** src/equations/Burgers.cpp:39-54 (SolveRiemannProblem). *)
Definition BurgersRiemann (left right : R) : R :=
  if Rlt_dec right left then
    let s := 1 / 2 * (left + right) in
    if Rlt_dec s 0 then right else left
  else if Rlt_dec 0 left then left
  else if Rlt_dec right 0 then right
  else 0.

(** src/equations/Burgers.cpp:56-64 (SolveRiemannProblem for arrays), one lane. *)
Definition BurgersRiemann_lane (left right : R) : R :=
  let s := 1 / 2 * (left + right) in
  let shock := if Rlt_dec s 0 then right else left in
  let rare := if Rlt_dec 0 left then left else if Rlt_dec right 0 then right else 0 in
  if Rlt_dec right left then shock else rare.

(** src/equations/Burgers.cpp:66-80 (ComputeSignals). *)
Definition BurgersSignals (left right : R) : list R :=
  if Rlt_dec right left then [1 / 2 * (left + right)] else [Rmax (Rabs left) (Rabs right)].

(** ** Advection (one direction; [v] is the velocity component of that direction) *)

(** src/equations/Advection.cpp:25-28 (Flux). *)
Definition AdvectionFlux (v u : R) : R := u * v.

(** src/equations/Advection.cpp:37-46 (SolveRiemannProblem). *)
Definition AdvectionRiemann (v left right : R) : R := if Rlt_dec 0 v then left else right.

(** src/equations/Advection.cpp:58-66 (ComputeSignals). *)
Definition AdvectionSignals (v left right : R) : list R := [v].

(** ** Godunov's method *)

(** include/fub/flux_method/GodunovMethod.hpp:129-136 (ComputeNumericFlux). *)
Definition GodunovFlux (flux : R -> R) (riemann : R -> R -> R) (left right : R) : R := flux (riemann left right).

(** include/fub/flux_method/GodunovMethod.hpp:162-170 (ComputeStableDt). *)
Definition GodunovStableDt (signals : R -> R -> list R) (dx left right : R) : time_step :=
  divide_dt dx (max_abs (signals left right)).

(** ** Patches in one space dimension *)

(** A patch is a function of the cell index; cells 0 <= i < n are the interior.  Filling of ghost cells:
    include/fub/boundary_condition/TransmissiveBoundary.hpp:44-75 (the lower ghost cells copy the first
    interior cell, the upper ones the last interior cell). *)
Definition transmissive {A} (n : Z) (u : Z -> A) (i : Z) : A :=
  if (i <? 0)%Z then u 0%Z else if (n <=? i)%Z then u (n - 1)%Z else u i.

(** src/HyperbolicPatchIntegrator.cpp:61-104 (UpdateConservatively) for one component in one dimension; face
    i lies between the cells i-1 and i.  The array version of this loop is [UpdateConservatively_seq] of
    UpdateModel.v (property C17). *)
Definition fv_update (dt dx : R) (F : Z -> R) (u : Z -> R) (i : Z) : R := u i + dt / dx * (F i - F (i + 1)%Z).

(** Numeric fluxes of a patch with ghost cells, include/fub/flux_method/FluxMethod.hpp:200-215 with stencil
    width one. *)
Definition face_fluxes {A B} (nf : A -> A -> B) (u : Z -> A) (i : Z) : B := nf (u (i - 1)%Z) (u i).

(** One time step of a scalar equation: fill ghost cells, compute fluxes, update
    (src/AMReX/HyperbolicSplitLevelIntegrator and HyperbolicMethod; see also property C12). *)
Definition scalar_step (nf : R -> R -> R) (dx : R) (n : Z) (u : Z -> R) (dt : R) : Z -> R :=
  fv_update dt dx (face_fluxes nf (transmissive n u)) (transmissive n u).

(** Any number of time steps. *)
Definition scalar_steps (nf : R -> R -> R) (dx : R) (n : Z) (dts : list R) (u : Z -> R) : Z -> R :=
  fold_left (scalar_step nf dx n) dts u.

(** The same for systems with components [K]. *)
Definition system_step {K} (nf : (K -> R) -> (K -> R) -> K -> R) (dx : R) (n : Z) (u : Z -> K -> R) (dt : R)
  : Z -> K -> R :=
  fun i k => fv_update dt dx (fun j => face_fluxes nf (transmissive n u) j k) (fun j => transmissive n u j k) i.

(** Any number of time steps of a system. *)
Definition system_steps {K} (nf : (K -> R) -> (K -> R) -> K -> R) (dx : R) (n : Z) (dts : list R) (u : Z -> K -> R)
  : Z -> K -> R := fold_left (system_step nf dx n) dts u.
