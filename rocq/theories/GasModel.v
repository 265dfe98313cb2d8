(** Perfect gas equations: state conversions, fluxes, reflection, rotation, Einfeldt signal speeds.
    Doubles are real numbers; vectors of any dimension are lists. *)
From Coq Require Import List Reals Bool.
Import ListNotations.
Local Open Scope R_scope.

(** Eigen's coefficient-wise operations on Array<double, Dim, 1>. *)
Fixpoint vmap2 (f : R -> R -> R) (a b : list R) : list R :=
  match a, b with x :: a', y :: b' => f x y :: vmap2 f a' b' | _, _ => [] end.
Definition vscale (k : R) (a : list R) : list R := map (fun x => k * x) a.
Definition vsub (a b : list R) : list R := vmap2 Rminus a b.
(** .dot / .squaredNorm *)
Fixpoint dot (a b : list R) : R := match a, b with x :: a', y :: b' => x * y + dot a' b' | _, _ => 0 end.
Definition squaredNorm (a : list R) : R := dot a a.
(** a[d] += x *)
Fixpoint add_at (d : nat) (x : R) (a : list R) : list R :=
  match a, d with
  | [], _ => []
  | y :: a', O => y + x :: a'
  | y :: a', S d' => y :: add_at d' x a'
  end.

(** PerfectGas.hpp:215-222: the constants of the equation; gamma_minus_1_inv has the initialiser
    1/(gamma-1) but is an independent member. *)
Record gas := mkGas { gamma : R; gamma_minus_1_inv : R; Rspec : R }.

(** PerfectGas.hpp:40-160: Conservative, Complete and Primitive states *)
Record Cons := mkCons { c_density : R; c_momentum : list R; c_energy : R }.
Record Complete := mkComplete
  { density : R; momentum : list R; energy : R; pressure : R; speed_of_sound : R }.
Record Prim := mkPrim { p_density : R; p_velocity : list R; p_pressure : R }.

(** AsCons, State.hpp:357-361 *)
Definition AsCons (q : Complete) : Cons := mkCons (density q) (momentum q) (energy q).

(** PerfectGas.cpp:25-29 *)
Definition KineticEnergy (rho : R) (m : list R) : R := 1 / 2 * squaredNorm m / rho.

(** PerfectGas.cpp:39-49 (masked lane) *)
Definition KineticEnergy_masked (mask : bool) (rho : R) (m : list R) : R :=
  let mask := if mask then (if Rlt_dec 0 rho then true else false) else false in
  1 / 2 * squaredNorm m / (if mask then rho else 1).

(** PerfectGas.cpp:51-64 *)
Definition Flux (q : Complete) (d0 : nat) : Cons :=
  let velocity := nth d0 (momentum q) 0 / density q in
  mkCons (nth d0 (momentum q) 0)
         (add_at d0 (pressure q) (map (fun m => velocity * m) (momentum q)))
         (velocity * (energy q + pressure q)).

(** PerfectGas.cpp:79-93 (masked lane) *)
Definition Flux_masked (mask : bool) (q : Complete) (d0 : nat) : Cons :=
  let mask := if mask then (if Rlt_dec 0 (density q) then true else false) else false in
  let rho := if mask then density q else 1 in
  let velocity := nth d0 (momentum q) 0 / rho in
  mkCons (nth d0 (momentum q) 0)
         (add_at d0 (pressure q) (map (fun m => velocity * m) (momentum q)))
         (velocity * (energy q + pressure q)).

(** PerfectGas.cpp:96-110; the array version 112-124 is the same in every lane *)
Definition CompleteFromCons (g : gas) (c : Cons) : Complete :=
  let e_kin := KineticEnergy (c_density c) (c_momentum c) in
  let e_int := c_energy c - e_kin in
  let p := e_int / gamma_minus_1_inv g in
  mkComplete (c_density c) (c_momentum c) (c_energy c) p (sqrt (gamma g * p / c_density c)).

(** PerfectGas.cpp:126-144 (masked lane) *)
Definition CompleteFromCons_masked (g : gas) (mask : bool) (c : Cons) : Complete :=
  let mask := if mask then (if Rlt_dec 0 (c_density c) then true else false) else false in
  let rho := if mask then c_density c else 0 in
  let e_kin := KineticEnergy_masked mask (c_density c) (c_momentum c) in
  let e_int := c_energy c - e_kin in
  let p := if mask then e_int / gamma_minus_1_inv g else 0 in
  let safe := if mask then rho else 1 in
  mkComplete rho (map (fun m => if mask then m else 0) (c_momentum c)) (if mask then c_energy c else 0) p
             (if mask then sqrt (gamma g * p / safe) else 0).

(** PerfectGas.cpp:146-158, PerfectGas.hpp:313-319 *)
Definition CompleteFromPrim (g : gas) (w : Prim) : Complete :=
  let m := vscale (p_density w) (p_velocity w) in
  let e_kin := KineticEnergy (p_density w) m in
  mkComplete (p_density w) m (e_kin + p_pressure w * gamma_minus_1_inv g) (p_pressure w)
             (sqrt (gamma g * p_pressure w / p_density w)).

(** PerfectGas.cpp:176-191 (masked lane); std::sqrt is applied after the selection *)
Definition CompleteFromPrim_masked (g : gas) (mask : bool) (w : Prim) : Complete :=
  let rho := if mask then p_density w else 0 in
  let m := map (fun v => if mask then p_density w * v else 0) (p_velocity w) in
  let p := if mask then p_pressure w else 0 in
  let e_kin := if mask then KineticEnergy (p_density w) m else 0 in
  mkComplete rho m (e_kin + p * gamma_minus_1_inv g) p (sqrt (if mask then gamma g * p / rho else 0)).

(** PerfectGas.hpp:321-328 *)
Definition PrimFromComplete (q : Complete) : Prim :=
  mkPrim (density q) (map (fun m => m / density q) (momentum q)) (pressure q).

(** PerfectGas.cpp:217-220 *)
Definition Temperature (g : gas) (q : Complete) : R := pressure q / (density q * Rspec g).

(** The vector expression of Reflect, PerfectGas.cpp:273-275, 285-287, 297-299, 307-309, ... *)
Definition reflect_vector (m n : list R) : list R := vsub m (vscale 2 (vscale (dot m n) n)).

(** PerfectGas.cpp:266-300 *)
Definition Reflect (q : Complete) (n : list R) : Complete :=
  mkComplete (density q) (reflect_vector (momentum q) n) (energy q) (pressure q) (speed_of_sound q).
(** PerfectGas.cpp:302-330 *)
Definition ReflectPrim (w : Prim) (n : list R) : Prim :=
  mkPrim (p_density w) (reflect_vector (p_velocity w) n) (p_pressure w).
(** PerfectGas.cpp:332-360 *)
Definition ReflectCons (c : Cons) (n : list R) : Cons :=
  mkCons (c_density c) (reflect_vector (c_momentum c) n) (c_energy c).

(** Matrix times vector: a matrix is the list of its rows. *)
Definition mat_vec (m : list (list R)) (v : list R) : list R := map (fun row => dot row v) m.

(** PerfectGas.cpp:240-248, 258-264 *)
Definition Rotate (q : Complete) (rotation : list (list R)) : Complete :=
  mkComplete (density q) (mat_vec rotation (momentum q)) (energy q) (pressure q) (speed_of_sound q).

(** Vectors in two and three dimensions for MakeRotation. *)
Definition vec2 := (R * R)%type.
Definition vec3 := (R * R * R)%type.
Definition mat2 := (R * R * (R * R))%type.
Definition mat3 := (R * R * R * (R * R * R) * (R * R * R))%type.
Definition rows2 (m : mat2) : list (list R) := let '(a, b, (c, d)) := m in [[a; b]; [c; d]].
Definition rows3 (m : mat3) : list (list R) :=
  let '(a, b, c, (d, e, f), (g, h, i)) := m in [[a; b; c]; [d; e; f]; [g; h; i]].

(** Equality test of Eigen vectors (Eigen.hpp:107, 120). *)
Definition opposite2 (a b : vec2) : bool :=
  let '(a0, a1) := a in let '(b0, b1) := b in
  if Req_EM_T a0 (- b0) then if Req_EM_T a1 (- b1) then true else false else false.
Definition opposite3 (a b : vec3) : bool :=
  let '(a0, a1, a2) := a in let '(b0, b1, b2) := b in
  if Req_EM_T a0 (- b0) then if Req_EM_T a1 (- b1) then if Req_EM_T a2 (- b2) then true else false else false else false.

(** Eigen.hpp:104-115 *)
Definition MakeRotation2 (a b : vec2) : mat2 :=
  if opposite2 a b then (-1, 0, (0, -1))
  else
    let '(a0, a1) := a in let '(b0, b1) := b in
    let s := a0 * b1 - a1 * b0 in
    let c := a0 * b0 + a1 * b1 in
    (c, - s, (s, c)).

(** Eigen.hpp:117-130; the product skew * skew and the sum are written out entry by entry *)
Definition MakeRotation3 (a b : vec3) : mat3 :=
  if opposite3 a b then (-1, 0, 0, (0, -1, 0), (0, 0, -1))
  else
    let '(a0, a1, a2) := a in let '(b0, b1, b2) := b in
    let v0 := a1 * b2 - a2 * b1 in
    let v1 := a2 * b0 - a0 * b2 in
    let v2 := a0 * b1 - a1 * b0 in
    let c := a0 * b0 + a1 * b1 + a2 * b2 in
    let d := 1 + c in
    (1 + (- (v2 * v2) - v1 * v1) / d, - v2 + v1 * v0 / d, v1 + v2 * v0 / d,
     (v2 + v0 * v1 / d, 1 + (- (v2 * v2) - v0 * v0) / d, - v0 + v2 * v1 / d),
     (- v1 + v0 * v2 / d, v0 + v1 * v2 / d, 1 + (- (v1 * v1) - v0 * v0) / d)).

(** src/equations/perfect_gas/EinfeldtSignalVelocities.hpp:23-60, the same as
    src/equations/euler_equations/EinfeldtSignalVelocities.hpp:23-59; the array versions 62-96 are the same in
    every lane. *)
Definition EinfeldtSignals (g : gas) (left right : Complete) (d : nat) : R * R :=
  let rhoL := density left in
  let rhoR := density right in
  let aL := speed_of_sound left in
  let aR := speed_of_sound right in
  let sqRhoL := sqrt rhoL in
  let sqRhoR := sqrt rhoR in
  let oosqRhoSum := 1 / (sqRhoL + sqRhoR) in
  let uL := nth d (momentum left) 0 / rhoL in
  let uR := nth d (momentum right) 0 / rhoR in
  let roeAvg := fun xL xR => (xL * sqRhoL + xR * sqRhoR) * oosqRhoSum in
  let roeU := roeAvg uL uR in
  let hL := (energy left + pressure left) / rhoL in
  let hR := (energy right + pressure right) / rhoR in
  let roeH := roeAvg hL hR in
  let roeA2 := (gamma g - 1) * (roeH - 1 / 2 * roeU * roeU) in
  let roeA := sqrt roeA2 in
  (Rmin (uL - aL) (roeU - roeA), Rmax (roeU + roeA) (uR + aR)).

(** The radicand of std::sqrt in EinfeldtSignals (line 53); a negative value would give NaN. *)
Definition EinfeldtRadicand (g : gas) (left right : Complete) (d : nat) : R :=
  let sqRhoL := sqrt (density left) in
  let sqRhoR := sqrt (density right) in
  let oosqRhoSum := 1 / (sqRhoL + sqRhoR) in
  let roeAvg := fun xL xR => (xL * sqRhoL + xR * sqRhoR) * oosqRhoSum in
  let roeU := roeAvg (nth d (momentum left) 0 / density left) (nth d (momentum right) 0 / density right) in
  let roeH := roeAvg ((energy left + pressure left) / density left) ((energy right + pressure right) / density right) in
  (gamma g - 1) * (roeH - 1 / 2 * roeU * roeU).
