(** The flux methods MusclHancockPrim and MusclHancockCharacteristic of the perfect gas.  Doubles are real numbers; one lane of the
    arrays is modelled.  Vectors are functions of the index. *)
From Coq Require Import List Reals Arith Bool.
From Verif Require Import HllemModel.
Import ListNotations.
Local Open Scope R_scope.

(** include/fub/equations/PerfectGas.hpp:150-222: the constants used here *)
Record gas := mkGas { gamma : R; gamma_minus_1_inv : R }.

(** PerfectGas.hpp:100-147: the members of a complete state which the methods read (the energy is not read) *)
Record cell := mkCell { density : R; momentum : nat -> R; pressure : R; speed_of_sound : R }.

(** Density, velocity and pressure: the locals rho_l, u_l, p_l of src/equations/perfect_gas/MusclHancockPrimMethod.hpp:79-101 and
    Primitives, include/fub/equations/perfect_gas/MusclHancockCharactersticMethod.hpp:53-102 *)
Record prim := mkPrim { rho : R; vel : nat -> R; pre : R }.
Definition prim_of (q : cell) : prim := mkPrim (density q) (fun i => momentum q i / density q) (pressure q).

(** MusclHancockPrimMethod.hpp:63-78 and 194-209: the lambda [limiter] *)
Definition limiter (qL qM qR : R) : R :=
  let delta_q := 1 / 2 * (qR - qL) in
  let is_relevant := if Rlt_dec (1 / 1000000000000) (Rabs delta_q) then true else false in
  let delta_q_if_relevant := if is_relevant then delta_q else 1 in
  let rL := if is_relevant then (qM - qL) / delta_q_if_relevant else 0 in
  let rR := if is_relevant then (qR - qM) / delta_q_if_relevant else 0 in
  let is_positive := if Rlt_dec 0 rL then (if Rlt_dec 0 rR then true else false) else false in
  let r := if is_positive then Rmin rL rR else 0 in
  let sigma := if Rlt_dec r 1 then 2 * r / (1 + r) else 1 / 2 * (r + 1) in
  sigma * delta_q.

(** MusclHancockPrimMethod.hpp:106-118 (drho, dp, du), masked 253-265 *)
Definition limited (l m r : prim) : prim :=
  mkPrim (limiter (rho l) (rho m) (rho r)) (fun i => limiter (vel l i) (vel m i) (vel r i)) (limiter (pre l) (pre m) (pre r)).

(** MusclHancockPrimMethod.hpp:120-131, masked 267-278: rec_rho_l, rec_p_l, rec_u_l; [a] is the speed of sound, [d] the direction *)
Definition rec_left (lambda : R) (d : nat) (m : prim) (a : R) (dm : prim) : prim :=
  mkPrim
    (rho m + 1 / 2 * (rho dm - lambda * (vel m d * rho dm + rho m * vel dm d)))
    (fun i => let x := vel m i + 1 / 2 * (vel dm i - lambda * (vel m d * vel dm i)) in
              if Nat.eqb i d then x - 1 / 2 * lambda * pre dm / rho m else x)
    (pre m + 1 / 2 * (pre dm - lambda * (rho m * a * a * vel dm d + vel m d * pre dm))).
(** MusclHancockPrimMethod.hpp:133-144, masked 280-291 *)
Definition rec_right (lambda : R) (d : nat) (m : prim) (a : R) (dm : prim) : prim :=
  mkPrim
    (rho m - 1 / 2 * (rho dm + lambda * (vel m d * rho dm + rho m * vel dm d)))
    (fun i => let x := vel m i - 1 / 2 * (vel dm i + lambda * (vel m d * vel dm i)) in
              if Nat.eqb i d then x - 1 / 2 * lambda * pre dm / rho m else x)
    (pre m - 1 / 2 * (pre dm + lambda * (rho m * a * a * vel dm d + vel m d * pre dm))).

(** .squaredNorm() of the first n entries *)
Fixpoint norm2 (n : nat) (v : nat -> R) : R := match n with O => 0 | S n' => norm2 n' v + v n' * v n' end.
(** MusclHancockPrimMethod.hpp:146-174, masked 293-323: the states w[0] and w[1] handed to HLLEM *)
Definition state (n : nat) (g : gas) (w : prim) : mstate :=
  mkM (rho w) (map (fun i => rho w * vel w i) (seq 0 n)) (1 / 2 * rho w * norm2 n (vel w) + pre w * gamma_minus_1_inv g) []
    (pre w) (sqrt (gamma g * pre w / rho w)) (gamma g).

(** MusclHancockPrimMethod.hpp:59-182 (ComputeNumericFlux, array version); Hllem is used with Larrouturou = true
    (HllemMethod.hpp:30).  The scalar version 52-57 throws. *)
Definition PrimFlux (n : nat) (g : gas) (dt dx : R) (d : nat) (s0 s1 s2 s3 : cell) : mflux :=
  let lambda := dt / dx in
  let q0 := prim_of s0 in let q1 := prim_of s1 in let q2 := prim_of s2 in let q3 := prim_of s3 in
  let w0 := rec_left lambda d q1 (speed_of_sound s1) (limited q0 q1 q2) in
  let w1 := rec_right lambda d q2 (speed_of_sound s2) (limited q1 q2 q3) in
  HllemFlux_lane true n 1 (state n g w0) (state n g w1) d.

(** mask.select(...) *)
Definition select {A} (mask : bool) (x y : A) : A := if mask then x else y.
Definition positive (x : R) : bool := if Rlt_dec 0 x then true else false.
(** MusclHancockPrimMethod.hpp:211-248: the primitive states of the four cells *)
Definition inner (mask : bool) (s : cell) : prim :=
  let r := select mask (density s) 1 in
  mkPrim r (fun i => select mask (momentum s i) 0 / r) (select mask (pressure s) 1).
Definition outer (mask out : bool) (s near : cell) : prim :=
  let r := select out (density s) (select mask (density near) 1) in
  mkPrim r (fun i => select out (momentum s i) (select mask (momentum near i) 0) / r) (select out (pressure s) (select mask (pressure near) 1)).

(** MusclHancockPrimMethod.hpp:184-333 (version for cut cells), one lane; [others] tells whether another lane of the pack has
    an open face: if no lane has one the function returns at once (lines 190-193) and the flux object keeps its value [old].  Lanes with
    closed faces get zero from HLLEM (HllemMethod.hpp:1080-1082). *)
Definition PrimFluxMasked (n : nat) (g : gas) (dt dx : R) (d : nat) (face v0 v3 : R) (others : bool) (old : mflux) (s0 s1 s2 s3 : cell) : mflux :=
  let mask := positive face in
  if negb (mask || others) then old
  else
    let lambda := dt / dx in
    let q0 := outer mask (positive v0) s0 s1 in let q1 := inner mask s1 in
    let q2 := inner mask s2 in let q3 := outer mask (positive v3) s3 s2 in
    let w0 := rec_left lambda d q1 (select mask (speed_of_sound s1) 1) (limited q0 q1 q2) in
    let w1 := rec_right lambda d q2 (select mask (speed_of_sound s2) 1) (limited q1 q2 q3) in
    if mask then HllemFlux_lane true n 1 (state n g w0) (state n g w1) d else mkF 0 (repeat 0 n) 0 [].

(** ** MusclHancockCharacteristic *)

(** MusclHancockCharactersticMethod.hpp:34-43: Characteristics *)
Record chars := mkChars { minus : R; zero : R; plus : R; cv : R; cw : R }.

(** src/equations/perfect_gas/MusclHancockCharacteristicMethod.hpp:29-34 *)
Definition MakeIndices (ix : nat) : nat * nat * nat :=
  let iy := Nat.modulo (ix + 1) 3 in let iz := Nat.modulo (iy + 1) 3 in (ix, iy, iz).

(** MusclHancockCharactersticMethod.hpp:58-73, 81-102: Primitives of a state with n velocities; the remaining entries are zero *)
Definition Primitives (n : nat) (q : cell) : prim :=
  mkPrim (density q) (fun i => if Nat.ltb i n then momentum q i / density q else 0) (pressure q).

(** MusclHancockCharacteristicMethod.hpp:36-49, array 51-65 *)
Definition ComputeAmplitudes (l r : prim) (rhoc ooc2 : R) (ix iy iz : nat) : chars :=
  let dp := pre r - pre l in
  let du := vel r ix - vel l ix in
  let drho := rho r - rho l in
  mkChars (dp - rhoc * du) (drho - ooc2 * dp) (dp + rhoc * du) (vel r iy - vel l iy) (vel r iz - vel l iz).

(** MusclHancockCharacteristicMethod.hpp:67-75, array 77-85 *)
Definition Recombine (q : chars) (rhoc ooc2 : R) (dir : nat) : prim :=
  let p := 1 / 2 * (minus q + plus q) in
  let '(ix, iy, iz) := MakeIndices dir in
  mkPrim (ooc2 * p + zero q)
    (fun i => if Nat.eqb i iz then cw q else if Nat.eqb i iy then cv q else if Nat.eqb i ix then 1 / 2 * (plus q - minus q) / rhoc else 0) p.

(** MusclHancockCharacteristicMethod.hpp:87-106, array 108-128; [lim] is the limiter handed to the constructor, by default
    VanLeer (MusclHancockCharactersticMethod.hpp:119-124) *)
Definition limit (lim : R -> R -> R) (a b : chars) : chars :=
  mkChars (lim (minus a) (minus b)) (lim (zero a) (zero b)) (lim (plus a) (plus b)) (lim (cv a) (cv b)) (lim (cw a) (cw b)).
Definition ComputeSlopes (lim : R -> R -> R) (l m r : prim) (rhoc ooc2 : R) (dir : nat) : chars :=
  let '(ix, iy, iz) := MakeIndices dir in
  limit lim (ComputeAmplitudes l m rhoc ooc2 ix iy iz) (ComputeAmplitudes m r rhoc ooc2 ix iy iz).
(** MusclHancockCharacteristicMethod.hpp:130-156: version for cut cells; [mask] tells whether all three volume fractions are positive.
    Only the left amplitudes are masked. *)
Definition mask_chars (mask : bool) (a : chars) : chars :=
  mkChars (select mask (minus a) 0) (select mask (zero a) 0) (select mask (plus a) 0) (select mask (cv a) 0) (select mask (cw a) 0).
Definition ComputeSlopesMasked (lim : R -> R -> R) (mask : bool) (l m r : prim) (rhoc ooc2 : R) (dir : nat) : chars :=
  let '(ix, iy, iz) := MakeIndices dir in
  limit lim (mask_chars mask (ComputeAmplitudes l m rhoc ooc2 ix iy iz)) (ComputeAmplitudes m r rhoc ooc2 ix iy iz).

(** MusclHancockCharacteristicMethod.hpp:158-168, array 170-180; [right] is is_right_side *)
Definition DoTimeStep (slope : chars) (right : bool) (lambda u c : R) : chars :=
  let sign := if right then -1 else 1 in
  mkChars (sign * (1 / 2) * minus slope * (1 - sign * lambda * (u - c))) (sign * (1 / 2) * zero slope * (1 - sign * lambda * u))
    (sign * (1 / 2) * plus slope * (1 - sign * lambda * (u + c))) (sign * (1 / 2) * cv slope * (1 - sign * lambda * u))
    (sign * (1 / 2) * cw slope * (1 - sign * lambda * u)).

(** MusclHancockCharacteristicMethod.hpp:212-233, array 235-256: the primitive state which is then completed; [slope] is what
    ComputeSlopes returned.  The velocities beyond the dimension are not used afterwards. *)
Definition Reconstruct (n : nat) (slope : chars) (right : bool) (q : cell) (lambda : R) (dir : nat) : prim :=
  let u := momentum q dir / density q in
  let c := speed_of_sound q in
  let rhoc := density q * c in
  let ooc2 := 1 / (c * c) in
  let diffs := Recombine (DoTimeStep slope right lambda u c) rhoc ooc2 dir in
  mkPrim (rho diffs + density q) (fun i => if Nat.ltb i n then vel diffs i + momentum q i / density q else vel diffs i) (pre diffs + pressure q).
Definition SlopesOf (n : nat) (lim : R -> R -> R) (l m r : cell) (dir : nat) : chars :=
  let c := speed_of_sound m in
  ComputeSlopes lim (Primitives n l) (Primitives n m) (Primitives n r) (density m * c) (1 / (c * c)) dir.
(** MusclHancockCharacteristicMethod.hpp:258-286 *)
Definition SlopesOfMasked (n : nat) (lim : R -> R -> R) (v0 v1 v2 : R) (l m r : cell) (dir : nat) : chars :=
  let c := speed_of_sound m in
  ComputeSlopesMasked lim (positive v0 && positive v1 && positive v2) (Primitives n l) (Primitives n m) (Primitives n r)
    (density m * c) (1 / (c * c)) dir.

(** src/equations/PerfectGas.cpp:147-158, array 160-174 (CompleteFromPrim) with KineticEnergy 23-29 *)
Definition CompleteFromPrim (n : nat) (g : gas) (w : prim) : mstate :=
  mkM (rho w) (map (fun i => rho w * vel w i) (seq 0 n))
    (1 / 2 * norm2 n (fun i => rho w * vel w i) / rho w + pre w * gamma_minus_1_inv g) [] (pre w) (sqrt (gamma g * pre w / rho w)) (gamma g).

(** MusclHancockCharacteristicMethod.hpp:303-317 (array version) *)
Definition CharFlux (n : nat) (lim : R -> R -> R) (g : gas) (dt dx : R) (d : nat) (s0 s1 s2 s3 : cell) : mflux :=
  let lambda := dt / dx in
  HllemFlux_lane true n 1 (CompleteFromPrim n g (Reconstruct n (SlopesOf n lim s0 s1 s2 d) false s1 lambda d))
    (CompleteFromPrim n g (Reconstruct n (SlopesOf n lim s1 s2 s3 d) true s2 lambda d)) d.
(** MusclHancockCharacteristicMethod.hpp:288-301 (scalar version); [old] as in HllemFlux *)
Definition CharFluxScalar (n : nat) (lim : R -> R -> R) (g : gas) (dt dx : R) (d : nat) (s0 s1 s2 s3 : cell) (old : mflux) : mflux :=
  let lambda := dt / dx in
  HllemFlux true n 1 (CompleteFromPrim n g (Reconstruct n (SlopesOf n lim s0 s1 s2 d) false s1 lambda d))
    (CompleteFromPrim n g (Reconstruct n (SlopesOf n lim s1 s2 s3 d) true s2 lambda d)) d old.
(** MusclHancockCharacteristicMethod.hpp:319-337 (cut cells), one lane.  For closed faces CompleteFromPrim with the mask
    (PerfectGas.cpp:176-191) and HLLEM (HllemMethod.hpp:1080-1082) give zero. *)
Definition CharFluxMasked (n : nat) (lim : R -> R -> R) (g : gas) (dt dx : R) (d : nat) (face v0 v1 v2 v3 : R) (s0 s1 s2 s3 : cell) : mflux :=
  let lambda := dt / dx in
  if positive face then
    HllemFlux_lane true n 1 (CompleteFromPrim n g (Reconstruct n (SlopesOfMasked n lim v0 v1 v2 s0 s1 s2 d) false s1 lambda d))
      (CompleteFromPrim n g (Reconstruct n (SlopesOfMasked n lim v1 v2 v3 s1 s2 s3 d) true s2 lambda d)) d
  else mkF 0 (repeat 0 n) 0 [].
