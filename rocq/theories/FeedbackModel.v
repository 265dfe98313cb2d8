(** include/fub/equations/perfect_gas_mix/PlenaControlFeedback.hpp and include/fub/AMReX/AverageState.hpp.
    Doubles are real numbers, two dimensions; a box is given by the indices of its first and last points. *)
From Coq Require Import List ZArith Reals Bool.
From Verif Require Import PlenaModel.
Import ListNotations.
Local Open Scope R_scope.

(** ::amrex::Box: smallEnd and bigEnd, both included *)
Record box := mkBox { bx0 : Z; by0 : Z; bx1 : Z; by1 : Z }.
(** The part of one MultiFab on one rank which is visited by one step of ForEachFab (ForEachFab.hpp:34-38, without
    tiling): mfi.tilebox() and mf[mfi] for one component *)
Record fab := mkFab { f_box : box; f_data : Z -> Z -> R }.
(** The integers from a to b *)
Definition zrange (a b : Z) : list Z := map (fun k => (a + Z.of_nat k)%Z) (seq 0 (Z.to_nat (b - a + 1))).
(** ForEachIndex over AsIndexBox, first index fastest *)
Definition points (b : box) : list (Z * Z) :=
  flat_map (fun j => map (fun i => (i, j)) (zrange (bx0 b) (bx1 b))) (zrange (by0 b) (by1 b)).
(** box & tilebox *)
Definition inter (a b : box) : box :=
  mkBox (Z.max (bx0 a) (bx0 b)) (Z.max (by0 a) (by0 b)) (Z.min (bx1 a) (bx1 b)) (Z.min (by1 a) (by1 b)).
(** Box::numPts *)
Definition numPts (b : box) : nat := length (points b).

(** AverageState.hpp:85-98 on one rank for one component (lines 59-73 are the same for complete states) *)
Definition local_average (b : box) (fabs : list fab) : R :=
  fold_left (fun acc f =>
    fold_left (fun acc ij => acc + f_data f (fst ij) (snd ij) / INR (numPts b)) (points (inter b (f_box f))) acc)
    fabs 0.
(** MPI_Allreduce with MPI_SUM; the order of the sum is not fixed by MPI, rounding is not modelled *)
Definition allreduce (l : list R) : R := fold_right Rplus 0 l.
(** AverageState.hpp:82-103 *)
Definition AverageState (b : box) (ranks : list (list fab)) : R := allreduce (map (local_average b) ranks).

(** AccumulateState, AverageState.hpp:35-54: one rank, nothing is added up between ranks. For one component; the state
    is passed by reference. *)
Definition AccumulateState {A : Type} (op : A -> R -> A) (b : box) (fabs : list fab) (init : A) : A :=
  fold_left (fun acc f =>
    fold_left (fun acc ij => op acc (f_data f (fst ij) (snd ij))) (points (inter b (f_box f))) acc) fabs init.

(** PlenaControlFeedback.hpp:52-63: the last column of cells and, with the type of faces in the first direction, the
    faces used for the fluxes. convert adds one to bigEnd(0), fbigEnd(0) is smallEnd(0). *)
Definition isEmpty (b : box) : bool := ((bx1 b <? bx0 b) || (by1 b <? by0 b))%Z.
Definition boundary_cells (boundary_box domain : box) : box :=
  let cells := if negb (isEmpty boundary_box) then boundary_box else domain in
  mkBox (bx1 cells) (by0 cells) (bx1 cells) (by1 cells).
Definition convert_x (b : box) : box := mkBox (bx0 b) (by0 b) (bx1 b + 1) (by1 b).
Definition boundary_faces (boundary_box domain : box) : box :=
  let faces_x := convert_x (boundary_cells boundary_box domain) in
  mkBox (bx0 faces_x) (by0 faces_x) (bx0 faces_x) (by1 faces_x).

(** Conservative variables of PerfectGasMix<2> read by the feedback: one MultiFab component each *)
Record cons := mkCons { c_rho : R; c_mx : R; c_my : R; c_E : R }.
(** PerfectGasMix.hpp:566-570 with euler::KineticEnergy *)
Definition Pressure (gm1 : R) (q : cons) : R :=
  (c_E q - (1 / 2) * (c_mx q * c_mx q + c_my q * c_my q) / c_rho q) * gm1.

(** One component of the cells of the scratch: a fab per component is replaced by a fab of states *)
Record sfab := mkSfab { s_box : box; s_data : Z -> Z -> cons }.
Definition component (pr : cons -> R) (f : sfab) : fab := mkFab (s_box f) (fun i j => pr (s_data f i j)).
Definition AverageCons (b : box) (ranks : list (list sfab)) : cons :=
  let av pr := AverageState b (map (map (component pr)) ranks) in
  mkCons (av c_rho) (av c_mx) (av c_my) (av c_E).

(** PlenaControlFeedback.hpp:67-79: state in front of the turbine and mass flow. PlenumState{} for the other members
    (PlenaControl.hpp:113-120; only pressure and temperature of this argument are used later). *)
Definition turbine_boundary (gm1 ooRspec : R) (boundary_box domain : box) (scratch : list (list sfab)) : plenum :=
  let q := AverageCons (boundary_cells boundary_box domain) scratch in
  let p := Pressure gm1 q in
  mkPlenum p (p / c_rho q * ooRspec) 0 0 0 false.
Definition mdot_turbine (area : R) (boundary_box domain : box) (fluxes_rho : list (list fab)) : R :=
  AverageState (boundary_faces boundary_box domain) fluxes_rho * area.

(** A patch of a tube: first and last cell, fluxes at the faces lo .. hi + 1 *)
Record tpatch := mkTpatch { t_lo : Z; t_hi : Z; t_flux : Z -> R }.
(** PlenaControlFeedback.hpp:99-110 and 204-213: the last visited patch which contains the face sets the value *)
Definition local_face (face : Z) (patches : list tpatch) : R :=
  fold_left (fun acc p => if ((t_lo p <=? face) && (face <=? t_hi p + 1))%Z then t_flux p face else acc) patches 0.
(** Lines 111-116 and 214-221 *)
Definition gather_face (face : Z) (ranks : list (list tpatch)) : R := allreduce (map (local_face face) ranks).
(** A tube: cells of the domain, and per component the patches of each rank *)
Record tube := mkTube { d_lo : Z; d_hi : Z; t_rho : list (list tpatch); t_spec : list (list tpatch); t_rhoe : list (list tpatch) }.
(** Lines 91-95: first and last face of the domain *)
Definition first_face (t : tube) : Z := d_lo t.
Definition last_face (t : tube) : Z := (d_hi t + 1)%Z.
Definition flux_first (t : tube) : R := gather_face (first_face t) (t_rho t).
Definition flux_spec_first (t : tube) : R := gather_face (first_face t) (t_spec t).
Definition flux_last (t : tube) : R := gather_face (last_face t) (t_rho t).
Definition flux_rhoe_last (t : tube) : R := gather_face (last_face t) (t_rhoe t).

(** Lines 118-127 *)
Definition mean_tubes (f : tube -> R) (tubes : list tube) : R :=
  1 / INR (length tubes) * fold_left Rplus (map f tubes) 0.

(** ControlFeedback<2>::operator(), lines 43-131 *)
Definition FeedbackPlenum (g : gas) (o : options) (gm1 ooRspec area : R) (boundary_box domain : box)
    (scratch : list (list sfab)) (fluxes_rho : list (list fab)) (tubes : list tube) (dt : R) (s : control) : result control :=
  UpdatePlena g o s
    (mkCall (mdot_turbine area boundary_box domain fluxes_rho) (turbine_boundary gm1 ooRspec boundary_box domain scratch)
       (mean_tubes flux_first tubes) (mean_tubes flux_spec_first tubes) (mean_tubes flux_last tubes) dt).

(** Options of the turbine plenum: ControlFeedbackOptions::mdot_correlation (line 153),
    ControlOptions::surface_area_tube_outlet and volume_turbine_plenum (PlenaControl.hpp:122-177) *)
Record toptions := mkTo { correlation : R; outlet : R; volume : R }.

(** ControlFeedback<1>::UpdateTurbinePlenumState, lines 161-184: new pressure and temperature, and the mass flow.
    turbine_new is default constructed by the caller (line 224), so its other members are zero. *)
Definition UpdateTurbinePlenumState (gm1 gm1_inv : R) (o : toptions) (old : plenum) (f_rho f_rhoe dt : R) : plenum * R :=
  let pT := p_pressure old in
  let TT := p_temp old in
  let mdotT := correlation o * pT / sqrt TT in
  let rho := pT / TT in
  let rhoe := pT * gm1_inv in
  let h := (rhoe + pT) / rho in
  let rho_n := rho + (f_rho * outlet o - mdotT) * dt / volume o in
  let rhoe_n := rhoe + (f_rhoe * outlet o - mdotT * h) * dt / volume o in
  let p := rhoe_n * gm1 in
  (mkPlenum p (p / rho_n) 0 0 0 false, mdotT).

(** ControlFeedback<1>::operator(), lines 186-231 *)
Definition FeedbackTube (g : gas) (o : options) (gm1 gm1_inv : R) (to : toptions) (t : tube) (dt : R) (s : control) : result control :=
  let '(new, mdot) := UpdateTurbinePlenumState gm1 gm1_inv to (PlenaModel.turbine s) (flux_last t) (flux_rhoe_last t) dt in
  UpdatePlena g o s (mkCall mdot new (flux_first t) (flux_spec_first t) (flux_last t) dt).
