(** Gradients and reconstructions of MusclHancock2 for the Euler equations of a perfect gas with species and passive
    scalars.  Doubles are real numbers; arrays are functions of the index. *)
From Coq Require Import List Reals Arith Bool.
From Verif Require Import LimiterModel.
Import ListNotations.
Local Open Scope R_scope.

(** include/fub/equations/PerfectGasMix.hpp:216-250 (PerfectGasConstants): the constants used here; each is an
    independent member.  For PerfectGas, whose states have no species and no passive scalars,
    euler::MaSq is 1 (EulerEquation.hpp:53-62). *)
Record gas := mkGas { gamma : R; gamma_minus_one_inv : R; Msq : R }.

(** PerfectGasMix.hpp:82-116, 184-214: Primitive and Complete states *)
Record prim := mkPrim { density : R; velocity : nat -> R; pressure : R; species : nat -> R; scalars : nat -> R }.
Record complete := mkComplete
  { c_density : R; c_momentum : nat -> R; c_energy : R; c_species : nat -> R; c_scalars : nat -> R;
    c_pressure : R; speed_of_sound : R }.

(** PerfectGasMix.hpp:146-182: Characteristics *)
Record chars := mkChars { minus : R; zero : nat -> R; plus : R; k_species : nat -> R; k_scalars : nat -> R }.

(** .squaredNorm() of the first n entries *)
Fixpoint squaredNorm (n : nat) (v : nat -> R) : R := match n with O => 0 | S n' => squaredNorm n' v + v n' * v n' end.

(** src/equations/PerfectGasMix.cpp:160-180 with PerfectGasMix.hpp:648-655; the array version PerfectGasMix.hpp:657-679
    is the same in every lane. *)
Definition CompleteFromPrim (n : nat) (g : gas) (w : prim) : complete :=
  let m := fun d => density w * velocity w d in
  let e_kin := Msq g * (1 / 2 * squaredNorm n m / density w) in
  mkComplete (density w) m (e_kin + pressure w * gamma_minus_one_inv g) (fun i => density w * species w i)
    (fun i => density w * scalars w i) (pressure w) (sqrt (gamma g * pressure w / density w)).

(** PerfectGasMix.hpp:681-694; the array version 696-712 is the same in every lane. *)
Definition PrimFromComplete (q : complete) : prim :=
  mkPrim (c_density q) (fun d => c_momentum q d / c_density q) (c_pressure q) (fun i => c_species q i / c_density q)
    (fun i => c_scalars q i / c_density q).

(** a[k] = x *)
Definition upd (v : nat -> R) (k : nat) (x : R) : nat -> R := fun j => if Nat.eqb j k then x else v j.

(** The loops "for (int i = 1; i < Rank; ++i) { const int iy = (ix + i) % Rank; ... [iy] = f i iy; }" *)
Definition transverse (n ix : nat) (f : nat -> nat -> R) (v : nat -> R) : nat -> R :=
  fold_left (fun v i => let iy := Nat.modulo (ix + i) n in upd v iy (f i iy)) (seq 1 (n - 1)) v.

(** sign = (side == Side::Upper) - (side == Side::Lower) *)
Definition sign (upper : bool) : R := if upper then 1 else -1.

(** ** Primitive variables *)

(** include/fub/flux_method/Gradient.hpp:263-276 (PrimitiveGradient::ComputeGradient) with 229-237; [limiter] is the
    template parameter of CentralDifferenceGradient.  The array version 278-291 is the same in every lane up to the
    order of the tests of the slopes (CentralDifference_lane). *)
Definition slope_prim (s : R -> R -> R) (l m r : prim) : prim :=
  mkPrim (s (density m - density l) (density r - density m))
    (fun d => s (velocity m d - velocity l d) (velocity r d - velocity m d))
    (s (pressure m - pressure l) (pressure r - pressure m))
    (fun i => s (species m i - species l i) (species r i - species m i))
    (fun i => s (scalars m i - scalars l i) (scalars r i - scalars m i)).
Definition PrimitiveGradient (limiter : R -> R) (qL qM qR : complete) (dx : R) : prim :=
  slope_prim (fun l r => CentralDifference limiter (l / dx) (r / dx))
    (PrimFromComplete qL) (PrimFromComplete qM) (PrimFromComplete qR).

(** The member w_rec_ when CompleteFromPrim is called, include/fub/flux_method/Reconstruct.hpp:223-267.  [old] is the
    velocity which w_rec_ had before the call. *)
Definition prim_rec (n : nat) (old : nat -> R) (q0 : complete) (dw : prim) (dt dx : R) (ix : nat) (upper : bool) : prim :=
  let w := PrimFromComplete q0 in
  let lambda := sign upper * dt / dx in
  let dx_half := sign upper * (1 / 2) * dx in
  let u := velocity w ix in
  let rho := c_density q0 in
  let a := speed_of_sound q0 in
  let a2 := a * a in
  let rho_a2 := rho * a2 in
  mkPrim
    (density w + dx_half * (density dw - lambda * (u * density dw + rho * velocity dw ix)))
    (transverse n ix (fun _ iy => velocity w iy + dx_half * (velocity dw iy - lambda * u * velocity dw iy))
       (upd old ix (velocity w ix + dx_half * (velocity dw ix - lambda * (u * velocity dw ix + pressure dw / rho)))))
    (pressure w + dx_half * (pressure dw - lambda * (rho_a2 * velocity dw ix + u * pressure dw)))
    (fun i => species w i + dx_half * (species dw i - lambda * u * species dw i))
    (fun i => scalars w i + dx_half * (scalars dw i - lambda * u * scalars dw i)).

(** Reconstruct.hpp:220-269 (PrimitiveReconstruction::Reconstruct); the array version 353-404 is the same in every lane. *)
Definition PrimitiveReconstruct (n : nat) (g : gas) (old : nat -> R) (q0 : complete) (dw : prim) (dt dx : R) (ix : nat)
    (upper : bool) : complete := CompleteFromPrim n g (prim_rec n old q0 dw dt dx ix upper).

(** Reconstruct.hpp:271-351 (ReconstructInvers).  [None]: an assertion fails or the result is not a number, that is
    1 - tau du or 1 - gamma tau du vanishes, or the quadratic equation (309-314) has no leading coefficient or a
    negative discriminant. *)
Definition ReconstructInvers (n : nat) (g : gas) (old : nat -> R) (rec : complete) (dw : prim) (dt dx : R) (ix : nat)
    (upper : bool) : option complete :=
  let w := PrimFromComplete rec in
  let eta := sign upper * (1 / 2) * dx in
  let tau := 1 / 2 * dt in
  let lambda := sign upper * dt / dx in
  let uL := velocity w ix in
  let rhoL := density w in
  let pL := pressure w in
  let du := velocity dw ix in
  let drho := density dw in
  let dp := pressure dw in
  let one_minus_tau_du := 1 - tau * du in
  let one_minus_gamma_tau_du := 1 - gamma g * tau * du in
  let A := one_minus_tau_du * tau * drho in
  let B := one_minus_tau_du * (rhoL - eta * drho) + tau * drho * (uL - eta * du) in
  let C := - ((rhoL - eta * drho) * (uL - eta * du) + tau * dp * one_minus_tau_du) in
  let D := B * B - 4 * A * C in
  let finish u := Some (CompleteFromPrim n g (mkPrim
    ((rhoL - eta * (1 - lambda * u) * drho) / one_minus_tau_du)
    (transverse n ix (fun _ iy => velocity w iy - eta * (velocity dw iy - lambda * u * velocity dw iy)) (upd old ix u))
    ((pL - eta * (1 - lambda * u) * dp) / one_minus_gamma_tau_du)
    (fun i => species w i - eta * (species dw i - lambda * u * species dw i))
    (fun i => scalars w i - eta * (scalars dw i + lambda * u * scalars dw i)))) in
  if Req_EM_T one_minus_tau_du 0 then None
  else if Req_EM_T one_minus_gamma_tau_du 0 then None
  else if Req_EM_T dp 0 then finish ((uL - eta * du) / one_minus_tau_du)
  else if Rlt_dec D 0 then None
  else if Req_EM_T A 0 then None
  else finish (1 / 2 * (- B + sqrt D) / A).

(** ** Characteristic variables *)

(** Gradient.hpp:293-320 (ComputeAmplitudes); the array version 322-352 is the same in every lane.  [old] is the previous
    value of amplitudes.zero. *)
Definition ComputeAmplitudes (n : nat) (g : gas) (old : nat -> R) (l r : prim) (rhoc ooc2 dx : R) (ix : nat) : chars :=
  let M := sqrt (Msq g) in
  let dp := (pressure r - pressure l) / dx in
  let du := (velocity r ix - velocity l ix) / dx in
  let drho := (density r - density l) / dx in
  mkChars (dp - M * rhoc * du)
    (fold_left (fun z i => let iy := Nat.modulo (ix + i) n in upd z i ((velocity r iy - velocity l iy) / dx))
       (seq 1 (n - 1)) (upd old 0 (drho - ooc2 * dp)))
    (dp + M * rhoc * du)
    (fun i => (species r i - species l i) / dx) (fun i => (scalars r i - scalars l i) / dx).

(** CentralDifferenceGradient::ComputeGradient for states (Gradient.hpp:229-237) *)
Definition limit_chars (limiter : R -> R) (l r : chars) : chars :=
  let s := CentralDifference limiter in
  mkChars (s (minus l) (minus r)) (fun i => s (zero l i) (zero r i)) (s (plus l) (plus r))
    (fun i => s (k_species l i) (k_species r i)) (fun i => s (k_scalars l i) (k_scalars r i)).

(** Gradient.hpp:370-384 (CharacteristicsGradient::ComputeGradient); the array version 354-368 is the same in every
    lane. *)
Definition CharacteristicsGradient (n : nat) (g : gas) (limiter : R -> R) (old : nat -> R) (qL qM qR : complete) (dx : R) (ix : nat)
    : chars :=
  let wL := PrimFromComplete qL in
  let wM := PrimFromComplete qM in
  let wR := PrimFromComplete qR in
  let rho := c_density qM in
  let c := speed_of_sound qM in
  let ooc2 := 1 / (c * c) in
  let rhoc := rho * c in
  limit_chars limiter (ComputeAmplitudes n g old wL wM rhoc ooc2 dx ix) (ComputeAmplitudes n g old wM wR rhoc ooc2 dx ix).

(** The increment dwdt_ of Reconstruct.hpp:409-454; [Minv] is 1 / MaSq in the scalar version (line 411) and does not
    occur in the array version (459-513), that is 1. *)
Definition char_increment (n : nat) (Minv : R) (old : nat -> R) (q0 : complete) (dK : chars) (dt dx : R) (ix : nat) (upper : bool) : prim :=
  let w := PrimFromComplete q0 in
  let u := velocity w ix in
  let c := speed_of_sound q0 in
  let lambda := sign upper * dt / dx in
  let dx_half := sign upper * (1 / 2) * dx in
  let k_minus := dx_half * minus dK * (1 - lambda * (u - c * Minv)) in
  let k_plus := dx_half * plus dK * (1 - lambda * (u + c * Minv)) in
  let k_zero := fun i => dx_half * zero dK i * (1 - lambda * u) in
  let rho := density w in
  let rhoc := rho * c in
  let c2 := c * c in
  let dp := 1 / 2 * (k_minus + k_plus) in
  mkPrim (dp / c2 + k_zero 0%nat)
    (transverse n ix (fun i _ => k_zero i) (upd old ix (1 / 2 * (k_plus - k_minus) * Minv / rhoc)))
    dp
    (fun i => dx_half * k_species dK i * (1 - lambda * u))
    (fun i => dx_half * k_scalars dK i * (1 - lambda * u)).

(** w_rec_ += dwdt_ (Reconstruct.hpp:455, 514; State.hpp:225-229) *)
Definition add_prim (w d : prim) : prim :=
  mkPrim (density w + density d) (fun j => velocity w j + velocity d j) (pressure w + pressure d)
    (fun i => species w i + species d i) (fun i => scalars w i + scalars d i).

(** Reconstruct.hpp:406-457 (CharacteristicsReconstruction::Reconstruct) *)
Definition CharacteristicsReconstruct (n : nat) (g : gas) (old : nat -> R) (q0 : complete) (dK : chars) (dt dx : R) (ix : nat)
    (upper : bool) : complete :=
  CompleteFromPrim n g (add_prim (PrimFromComplete q0) (char_increment n (1 / Msq g) old q0 dK dt dx ix upper)).

(** Reconstruct.hpp:459-516 (array version), one lane *)
Definition CharacteristicsReconstruct_lane (n : nat) (g : gas) (old : nat -> R) (q0 : complete) (dK : chars) (dt dx : R) (ix : nat)
    (upper : bool) : complete :=
  CompleteFromPrim n g (add_prim (PrimFromComplete q0) (char_increment n 1 old q0 dK dt dx ix upper)).

(** ** MusclHancock2 *)
Section Muscl2.
Variables (Q G F : Type).
Variable ComputeGradient : Q -> Q -> Q -> R -> G.         (* gradient_method_.ComputeGradient *)
Variable Reconstruct : Q -> G -> R -> R -> bool -> Q.     (* reconstruction_method_.Reconstruct; true: Side::Upper *)
Variable base : Q -> Q -> R -> R -> F.                    (* flux_method_.ComputeNumericFlux *)
Variable no_gradient : G.                                 (* every component 0 *)

(** include/fub/flux_method/MusclHancockMethod2.hpp:147-158 (two cells and their gradients); array version 175-188 *)
Definition Muscl2_gradients (s0 s1 : Q) (g0 g1 : G) (dt dx : R) : F :=
  base (Reconstruct s0 g0 dt dx true) (Reconstruct s1 g1 dt dx false) dt dx.

(** MusclHancockMethod2.hpp:134-145 (a stencil of four cells); array version 160-173 *)
Definition Muscl2 (s0 s1 s2 s3 : Q) (dt dx : R) : F :=
  let g0 := ComputeGradient s0 s1 s2 dx in
  let g1 := ComputeGradient s1 s2 s3 dx in
  Muscl2_gradients s1 s2 g0 g1 dt dx.

(** MusclHancockMethod2.hpp:190-216 (cut cells), one lane; the masked base method is a parameter. *)
Variable masked_base : Q -> Q -> R -> R -> R -> R -> R -> F. (* states, face and volume fractions, dt, dx *)
Definition Muscl2_masked (face : R) (s0 s1 s2 s3 : Q) (v0 v1 v2 v3 : R) (dt dx : R) : F :=
  let pos := fun v => if Rlt_dec 0 v then true else false in
  let g0 := ComputeGradient s0 s1 s2 dx in
  let g1 := ComputeGradient s1 s2 s3 dx in
  let left_mask := pos v0 && pos v1 && pos v2 in
  let right_mask := pos v1 && pos v2 && pos v3 in
  let g0 := if left_mask then g0 else no_gradient in
  let g1 := if right_mask then g1 else no_gradient in
  masked_base (Reconstruct s1 g0 dt dx true) (Reconstruct s2 g1 dt dx false) face v1 v2 dt dx.
End Muscl2.

(** ** Conservative variables *)
Section Conservative.
Variables (Q K : Type).
Variable cons : Q -> K -> R.                 (* AsCons *)
Variable flux : Q -> K -> R.                 (* Flux(equation_, ...) *)
Variable CompleteFromCons : (K -> R) -> Q.   (* CompleteFromCons(equation_, ...) *)

(** Gradient.hpp:239-249 (ConservativeGradient::ComputeGradient); array version 251-261 *)
Definition ConservativeGradient (limiter : R -> R) (qL qM qR : Q) (dx : R) : K -> R :=
  fun k => CentralDifference limiter ((cons qM k - cons qL k) / dx) ((cons qR k - cons qM k) / dx).

(** Reconstruct.hpp:165-190 (ConservativeReconstruction::Reconstruct); array version 192-218 *)
Definition ConservativeReconstruct (q0 : Q) (dq : K -> R) (dt dx : R) (upper : bool) : Q :=
  let q_left := CompleteFromCons (fun k => cons q0 k - 1 / 2 * dx * dq k) in
  let q_right := CompleteFromCons (fun k => cons q0 k + 1 / 2 * dx * dq k) in
  let lambda_half := 1 / 2 * dt / dx in
  let q := if upper then q_right else q_left in
  CompleteFromCons (fun k => cons q k + lambda_half * (flux q_left k - flux q_right k)).
End Conservative.
