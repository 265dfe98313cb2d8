(** The HLLEM flux, src/equations/perfect_gas/HllemMethod.hpp:371-1072, scalar and vectorised, with and
    without the treatment of Larrouturou.  Species and passive scalars are handled by identical code in the
    source and form one list here.  Doubles are real numbers, so expressions which differ only in the order
    of multiplications are written once. *)
From Coq Require Import List Reals Bool.
From Verif Require Import GasModel.
Import ListNotations.
Local Open Scope R_scope.

(** A complete state of PerfectGas / PerfectGasMix (PerfectGasMix.hpp:150-222) with euler::Gamma of the state. *)
Record mstate := mkM { m_rho : R; m_mom : list R; m_E : R; m_Y : list R; m_p : R; m_a : R; m_gamma : R }.
(** A flux (conservative state). *)
Record mflux := mkF { f_rho : R; f_mom : list R; f_E : R; f_Y : list R }.

(** PerfectGasMix.cpp:24-44; with Msq = 1 and no scalars PerfectGas.cpp:51-64 *)
Definition MixFlux (Msq : R) (q : mstate) (d : nat) : mflux :=
  let velocity := nth d (m_mom q) 0 / m_rho q in
  mkF (nth d (m_mom q) 0)
      (add_at d (m_p q * (1 / Msq)) (map (fun m => velocity * m) (m_mom q)))
      (velocity * (m_E q + m_p q))
      (map (fun y => velocity * y) (m_Y q)).

(** x multiplied by dim_mask[i] = (i == d), HllemMethod.hpp:392-399 *)
Fixpoint keep_only (d : nat) (l : list R) : list R :=
  match l, d with
  | [], _ => []
  | x :: r, O => x :: map (fun _ => 0) r
  | x :: r, S d' => 0 :: keep_only d' r
  end.
(** Sum of (1 - dim_mask[i]) * v[i] * v[i], lines 394-396 *)
Fixpoint others_squared (d : nat) (v : list R) : R :=
  match v, d with
  | [], _ => 0
  | x :: r, O => squaredNorm r
  | x :: r, S d' => x * x + others_squared d' r
  end.

(** vL_, lines 383-386 (scalar), 732-733 (array) *)
Definition velocities (q : mstate) : list R := map (fun m => m / m_rho q) (m_mom q).
(** eKinRL, lines 387-401 (0 without Larrouturou) *)
Definition eKinR (lar : bool) (Msq : R) (q : mstate) (d : nat) : R :=
  if lar then 1 / 2 * Msq * others_squared d (velocities q) else 0.
(** left_ after lines 391-404; array lines 724-744 *)
Definition strip (lar : bool) (Msq : R) (q : mstate) (d : nat) : mstate :=
  if lar
  then mkM (m_rho q) (keep_only d (m_mom q)) (m_E q - m_rho q * eKinR lar Msq q d) (m_Y q) (m_p q) (m_a q) (m_gamma q)
  else q.

(** Roe averages: lines 429-431 (scalar) and 764-775 (array) *)
Definition scalar_avg (sqL sqR xL xR : R) : R := (sqL * xL + sqR * xR) / (sqL + sqR).
Definition lane_avg (sqL sqR xL xR : R) : R := sqL / (sqL + sqR) * xL + sqR / (sqL + sqR) * xR.

(** The quantities computed in lines 406-470 (scalar) and 746-826 (array) before the cases on the dimension. *)
Record hllem_data := mkD
  { h_roeU : list R; h_roeH : R; h_gm1 : R; h_roeA2 : R; h_sL : R; h_sR : R; h_bL : R; h_bR : R; h_db : R;
    h_hlle : mflux; h_b : R; h_delta : R; h_dRho : R; h_dRhoU : list R; h_dRhoE : R }.

(** The HLLE flux of one component, lines 455-459 and 805-810 *)
Definition hlle (bL bR db fL fR qL qR : R) : R := (bR * fL - bL * fR + bL * bR * (qR - qL)) / db.

Fixpoint hlle_list (bL bR db : R) (fL fR qL qR : list R) : list R :=
  match fL, fR, qL, qR with
  | a :: fL', b :: fR', x :: qL', y :: qR' => hlle bL bR db a b x y :: hlle_list bL bR db fL' fR' qL' qR'
  | _, _, _, _ => []
  end.

Definition compute_data (avg : R -> R -> R -> R -> R) (Msq : R) (l r : mstate) (d : nat) : hllem_data :=
  let Minv := 1 / sqrt Msq in
  let fL := MixFlux Msq l d in
  let fR := MixFlux Msq r d in
  let rhoL := m_rho l in
  let rhoR := m_rho r in
  let uL := nth d (m_mom l) 0 / rhoL in
  let uR := nth d (m_mom r) 0 / rhoR in
  let hL := (m_E l + m_p l) / rhoL in
  let hR := (m_E r + m_p r) / rhoR in
  let sqL := sqrt rhoL in
  let sqR := sqrt rhoR in
  let roeU := vmap2 (avg sqL sqR) (velocities l) (velocities r) in
  let roeU0 := nth d roeU 0 in
  let roeH := avg sqL sqR hL hR in
  let roeGamma := scalar_avg sqL sqR (m_gamma l) (m_gamma r) in
  let gm1 := roeGamma - 1 in
  let roeA2 := gm1 * (roeH - 1 / 2 * Msq * squaredNorm roeU) in
  let roeA := sqrt roeA2 in
  let maxA := Rmax (m_a l) (m_a r) in
  let sL := Rmin (uL - maxA * Minv) (roeU0 - roeA * Minv) in
  let sR := Rmax (roeU0 + roeA * Minv) (uR + maxA * Minv) in
  let bL := Rmin sL 0 in
  let bR := Rmax sR 0 in
  let db := bR - bL in
  let dbp := if Rlt_dec 0 db then db else 1 in
  let h := mkF (hlle bL bR dbp (f_rho fL) (f_rho fR) rhoL rhoR)
               (hlle_list bL bR dbp (f_mom fL) (f_mom fR) (m_mom l) (m_mom r))
               (hlle bL bR dbp (f_E fL) (f_E fR) (m_E l) (m_E r))
               (hlle_list bL bR dbp (f_Y fL) (f_Y fR) (m_Y l) (m_Y r)) in
  let u_bar := 1 / 2 * (sR + sL) in
  mkD roeU roeH gm1 roeA2 sL sR bL bR dbp h (bL * bR / dbp) (roeA / (roeA + Rabs u_bar))
      (rhoR - rhoL) (vmap2 (fun x y => y - x) (m_mom l) (m_mom r)) (m_E r - m_E l).

(** alpha_2 for Dim = 1 (lines 473-477), Dim = 2 (534-539) and Dim = 3 (618-625), array lines 829-832, 895-900,
    979-987; the factor Msq occurs in l22 only. *)
Definition alpha2 (dim : nat) (Msq : R) (D : hllem_data) : R :=
  let k := h_gm1 D / h_roeA2 D in
  let u i := nth i (h_roeU D) 0 in
  let m i := nth i (h_dRhoU D) 0 in
  k * (h_roeH D - Msq * squaredNorm (h_roeU D)) * h_dRho D
  + k * Msq * u 0%nat * m 0%nat
  + (if Nat.leb 2 dim then k * u 1%nat * m 1%nat else 0)
  + (if Nat.leb 3 dim then k * u 2%nat * m 2%nat else 0)
  + k * (-1) * h_dRhoE D.

(** Assigning momentum[ix], momentum[iy] (and momentum[iz]) with iy = (ix+1)%dim, iz = (iy+1)%dim,
    lines 532-533, 615-617, 893-894, 976-978 *)
Definition place2 (ix : nat) (x y : R) : list R := if Nat.eqb ix 0 then [x; y] else [y; x].
Definition place3 (ix : nat) (x y z : R) : list R :=
  if Nat.eqb ix 0 then [x; y; z] else if Nat.eqb ix 1 then [z; x; y] else [y; z; x].
Definition next_dir (dim i : nat) : nat := Nat.modulo (i + 1) dim.

(** f_rho * (upwind * YL - (1 - upwind) * YR), scalar Larrouturou: lines 491-494, 515-518, 545-550, ... *)
Definition scalar_upwind (f YL YR : R) : R :=
  let upwind := if Rlt_dec 0 f then 1 else 0 in
  f * (upwind * YL - (1 - upwind) * YR).
(** f_rho * upwind.select(YL, YR), lines 844-847, 867-870, 907-910, ... *)
Definition lane_upwind (f YL YR : R) : R := f * (if Rlt_dec 0 f then YL else YR).

(** Species and passive scalars without Larrouturou: lines 496-503, 520-527, ... *)
Definition plain_scalar (D : hllem_data) (sqL sqR ba2 hl yL yR YL YR : R) : R :=
  let roeY := scalar_avg sqL sqR YL YR in
  let alpha_i := - roeY * h_dRho D + 1 * (yR - yL) in
  hl - ba2 * roeY - h_b D * h_delta D * alpha_i.

Fixpoint scalars (lar : bool) (upw : R -> R -> R -> R) (D : hllem_data) (fr ba2 : R) (l r : mstate)
    (hl yl yr : list R) : list R :=
  match hl, yl, yr with
  | h :: hl', a :: yl', b :: yr' =>
      (if lar then upw fr (a / m_rho l) (b / m_rho r)
       else plain_scalar D (sqrt (m_rho l)) (sqrt (m_rho r)) ba2 h a b (a / m_rho l) (b / m_rho r))
      :: scalars lar upw D fr ba2 l r hl' yl' yr'
  | _, _, _ => []
  end.

(** The common part of both versions: [dens] and [momx] are the assigned values of flux.density and
    flux.momentum[ix] (momx is given the value of alpha_2 times b delta). *)
Definition finish (lar : bool) (upw : R -> R -> R -> R) (dim : nat) (Msq : R) (left right l r : mstate) (d : nat)
    (D : hllem_data) (dens momx : R) : mflux :=
  let ba2 := h_b D * h_delta D * alpha2 dim Msq D in
  let half := 1 / 2 * (Msq * squaredNorm (h_roeU D)) in
  let iy := next_dir dim d in
  let iz := next_dir dim iy in
  let u i := nth i (h_roeU D) 0 in
  let hm i := nth i (f_mom (h_hlle D)) 0 in
  let vL i := nth i (velocities left) 0 in
  let vR i := nth i (velocities right) 0 in
  let ba3 i := h_b D * h_delta D * (- u i * h_dRho D + 1 * nth i (h_dRhoU D) 0) in
  let trans i := if lar then upw dens (vL i) (vR i) else hm i - ba2 * u i - ba3 i * 1 in
  let E0 := f_E (h_hlle D) - ba2 * half in
  let energy :=
    match dim with
    | 1%nat => E0
    | 2%nat => if lar then E0 + upw dens (eKinR lar Msq left d) (eKinR lar Msq right d) else E0 - ba3 iy * u iy
    | _ => if lar then E0 + upw dens (eKinR lar Msq left d) (eKinR lar Msq right d)
           else E0 - ba3 iy * u iy - ba3 iz * u iz
    end in
  mkF dens
      (match dim with
       | 1%nat => [momx]
       | 2%nat => place2 d momx (trans iy)
       | _ => place3 d momx (trans iy) (trans iz)
       end)
      energy
      (scalars lar upw D dens ba2 l r (f_Y (h_hlle D)) (m_Y l) (m_Y r)).

(** Scalar version, lines 371-707.  [old] is the flux object passed in: for Dim = 3 (lines 613-705) neither
    flux.density nor flux.momentum[ix] is assigned. *)
Definition HllemFlux (lar : bool) (dim : nat) (Msq : R) (left right : mstate) (d : nat) (old : mflux) : mflux :=
  let l := strip lar Msq left d in
  let r := strip lar Msq right d in
  let D := compute_data scalar_avg Msq l r d in
  let ba2 := h_b D * h_delta D * alpha2 dim Msq D in
  let dens := if Nat.eqb dim 3 then f_rho old else f_rho (h_hlle D) - ba2 * 1 in
  let momx := if Nat.eqb dim 3 then nth d (f_mom old) 0 else nth d (f_mom (h_hlle D)) 0 - ba2 * nth d (h_roeU D) 0 in
  finish lar scalar_upwind dim Msq left right l r d D dens momx.

(** Array version (one lane), lines 711-1071.  For Dim = 3 momentum[ix] uses roeU.row(iy), lines 991-992. *)
Definition HllemFlux_lane (lar : bool) (dim : nat) (Msq : R) (left right : mstate) (d : nat) : mflux :=
  let l := strip lar Msq left d in
  let r := strip lar Msq right d in
  let D := compute_data lane_avg Msq l r d in
  let ba2 := h_b D * h_delta D * alpha2 dim Msq D in
  let dens := f_rho (h_hlle D) - ba2 in
  let momx := nth d (f_mom (h_hlle D)) 0 - ba2 * nth (if Nat.eqb dim 3 then next_dir dim d else d) (h_roeU D) 0 in
  finish lar lane_upwind dim Msq left right l r d D dens momx.

(** p_star, lines 707-708 and 1069-1070 *)
Definition HllemPressure (avg : R -> R -> R -> R -> R) (lar : bool) (Msq : R) (left right : mstate) (d : nat) : R :=
  let D := compute_data avg Msq (strip lar Msq left d) (strip lar Msq right d) d in
  (h_bR D * m_p left - h_bL D * m_p right) / h_db D.
