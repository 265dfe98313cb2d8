(** The flux method ThirdOrderRungeKutta for the one-dimensional perfect gas.  Doubles are real numbers; divisions by zero and
    roots of negative numbers are not tracked. *)
From Coq Require Import Reals Arith Bool.
Local Open Scope R_scope.

(** include/fub/equations/PerfectGas.hpp:150-222: the constants of the equation; k_0 and eta_0 are members of the method
    (include/fub/equations/perfect_gas/ThirdOrderRungeKuttaMethod.hpp:68-70). *)
Record gas := mkGas { Rspec : R; gamma : R; gamma_minus_1_inv : R; k_0 : R; eta_0 : R }.

(** PerfectGas.hpp:33-71, 100-147: Conservative and Complete states of PerfectGas<1> *)
Record cons := mkCons { density : R; momentum : R; energy : R }.
Record complete := mkComplete { co : cons; pressure : R; speed_of_sound : R }.

(** include/fub/State.hpp: ForEachComponent over sums, differences and multiples of states
    (used in ThirdOrderRungeKuttaMethod.hpp:183-236) *)
Definition add (a b : cons) : cons := mkCons (density a + density b) (momentum a + momentum b) (energy a + energy b).
Definition sub (a b : cons) : cons := mkCons (density a - density b) (momentum a - momentum b) (energy a - energy b).
Definition scale (c : R) (a : cons) : cons := mkCons (c * density a) (c * momentum a) (c * energy a).

(** src/equations/PerfectGas.cpp:23-29, 97-112 *)
Definition CompleteFromCons (g : gas) (q : cons) : complete :=
  let e_kin := 1 / 2 * (momentum q * momentum q) / density q in
  let e_int := energy q - e_kin in
  let p := e_int / gamma_minus_1_inv g in
  mkComplete q p (sqrt (gamma g * p / density q)).

(** PerfectGas.cpp:52-64 for one dimension *)
Definition Flux (q : complete) : cons :=
  let velocity := momentum (co q) / density (co q) in
  mkCons (momentum (co q)) (velocity * momentum (co q) + pressure q) (velocity * (energy (co q) + pressure q)).

(** PerfectGas.cpp:193-198, 216-219 *)
Definition Velocity (q : complete) : R := momentum (co q) / density (co q).
Definition Temperature (g : gas) (q : complete) : R := pressure q / (density (co q) * Rspec g).

(** src/equations/perfect_gas/ThirdOrderRungeKuttaMethod.hpp:28-34 (array version 36-43) *)
Definition alpha_1 : R := 9114378277661477 / 10000000000000000.
Definition alpha_2 : R := 4114378277661477 / 10000000000000000.
Definition CellToEdge_ (u_ll u_l u_r u_rr : R) : R := alpha_1 * (u_l + u_r) - alpha_2 * (u_ll + u_rr).

(** ThirdOrderRungeKuttaMethod.hpp:46-62 (array version 64-80) *)
Definition CellToEdge (a b c d : cons) : cons :=
  mkCons (CellToEdge_ (density a) (density b) (density c) (density d))
    (CellToEdge_ (momentum a) (momentum b) (momentum c) (momentum d))
    (CellToEdge_ (energy a) (energy b) (energy c) (energy d)).

(** ThirdOrderRungeKuttaMethod.hpp:100-126 (array version 128-154) *)
Definition ComputeDiffusion (g : gas) (q0 q1 q_edge : complete) (dx : R) : cons :=
  let u_edge := Velocity q_edge in
  let sqrt_T_edge := sqrt (Temperature g q_edge) in
  let eta_edge := eta_0 g * sqrt_T_edge in
  let k_edge := k_0 g * sqrt_T_edge in
  let du_dx := (Velocity q1 - Velocity q0) / dx in
  let dT_dx := (Temperature g q1 - Temperature g q0) / dx in
  let c1 := 4 / 3 in
  mkCons 0 (c1 * eta_edge * du_dx) (c1 * eta_edge * u_edge * du_dx + k_edge * dT_dx).

(** ThirdOrderRungeKuttaMethod.hpp:172-180 (also 195-203 and 219-227): the flux at the face between the cells b and c *)
Definition EdgeFlux (g : gas) (dx : R) (a b c d : complete) : cons :=
  let u_edge := CompleteFromCons g (CellToEdge (co a) (co b) (co c) (co d)) in
  sub (Flux u_edge) (ComputeDiffusion g b c u_edge dx).

(** std::array members: [None] where nothing has been written *)
Definition array (A : Type) : Type := nat -> option A.
(** for (int i = a; i < b; ++i) x[i] = f(i); *)
Definition fill {A} (a b : nat) (f : nat -> option A) : array A := fun i => if Nat.leb a i && Nat.ltb i b then f i else None.
(** Stencil(u, i - 2) and Stencil2(u, i - 1), ThirdOrderRungeKuttaMethod.hpp:82-98 *)
Definition face (g : gas) (dx : R) (u : array complete) (i : nat) : option cons :=
  match u (i - 2)%nat, u (i - 1)%nat, u i, u (i + 1)%nat with
  | Some a, Some b, Some c, Some d => Some (EdgeFlux g dx a b c d)
  | _, _, _, _ => None
  end.

(** ThirdOrderRungeKuttaMethod.hpp:156-237 (ComputeNumericFlux); the array version 248-322 is the same in every lane, the version
    for cut cells 239-246 throws. *)
Definition stage1 (g : gas) (lambda : R) (u_n : array complete) (f_n : array cons) (i : nat) : option complete :=
  match u_n i, f_n i, f_n (i + 1)%nat with
  | Some u, Some f, Some f' => Some (CompleteFromCons g (add (co u) (scale lambda (sub f f'))))
  | _, _, _ => None
  end.
Definition stage2 (g : gas) (lambda : R) (u_n u_n13 : array complete) (f_n13 : array cons) (i : nat) : option complete :=
  match u_n i, u_n13 i, f_n13 i, f_n13 (i + 1)%nat with
  | Some u, Some v, Some f, Some f' =>
      Some (CompleteFromCons g (add (add (scale (75 / 100) (co u)) (scale (25 / 100) (co v))) (scale (25 / 100 * lambda) (sub f f'))))
  | _, _, _, _ => None
  end.
Definition ComputeNumericFlux (g : gas) (u : nat -> complete) (dt dx : R) : option cons :=
  let lambda := dt / dx in
  let u_n := fill 0 12 (fun i => Some (u i)) in
  let f_n := fill 2 11 (face g dx u_n) in
  let u_n13 := fill 2 10 (stage1 g lambda u_n f_n) in
  let f_n13 := fill 4 9 (face g dx u_n13) in
  let u_n23 := fill 4 8 (stage2 g lambda u_n u_n13 f_n13) in
  let f_n23 := fill 6 7 (face g dx u_n23) in
  let c1 := 1 / 6 in
  let c2 := 2 / 3 in
  match f_n 6%nat, f_n13 6%nat, f_n23 6%nat with
  | Some a, Some b, Some c => Some (add (add (scale c1 a) (scale c1 b)) (scale c2 c))
  | _, _, _ => None
  end.

(** ThirdOrderRungeKuttaMethod.hpp:342-352 (array version 324-333); the version for cut cells 335-340 throws. *)
Definition ComputeStableDt (u : nat -> complete) (dx : R) : R :=
  let cL := speed_of_sound (u 5%nat) in
  let cR := speed_of_sound (u 6%nat) in
  let uL := momentum (co (u 5%nat)) / density (co (u 5%nat)) in
  let uR := momentum (co (u 6%nat)) / density (co (u 6%nat)) in
  dx / Rmax (Rabs uL + cL) (Rabs uR + cR).
