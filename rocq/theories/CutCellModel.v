(** Cut cells: shielded fractions of faces (src/AMReX/cutcell/FillCutCellData.cpp), stabilised fluxes
    (src/cutcell_method/KbnStabilisation.cpp) and the conservative update (src/AMReX/cutcell/TimeIntegrator.cpp).
    Doubles are real numbers.  Rows of arrays are lists; the row functions are called on rows of equal length
    which do not overlap (next and prev of the update are the same row, each element is read before it is
    written), so that memory is not modelled here. *)
From Coq Require Import List Reals ZArith Bool.
Import ListNotations.
Local Open Scope R_scope.

(** The loop over a row: packs of [w] elements while there are that many, then single elements.
    FillCutCellData.cpp:35-67, 68-93; KbnStabilisation.cpp:59-87, 89-104; TimeIntegrator.cpp:72-156, 157-216.
    None means the loop did not finish. *)
Fixpoint row_loop {A B : Type} (fuel w : nat) (pack : list A -> list B) (single : A -> B) (l : list A) : option (list B) :=
  match fuel with
  | O => None
  | S k => if Nat.leb w (length l)
           then match row_loop k w pack single (skipn w l) with
                | Some r => Some (pack (firstn w l) ++ r)
                | None => None
                end
           else Some (map single l)
  end.
Definition run_row {A B : Type} (w : nat) (pack : list A -> list B) (single : A -> B) (l : list A) : option (list B) :=
  row_loop (S (length l)) w pack single l.

(** ** Fractions of a face *)

(** us, ssL, ssR, ds and their relative values, FillCutCellData.cpp:28-31 *)
Record fractions := mkFr { us : R; ssL : R; ssR : R; ds : R; us_rel : R; ssL_rel : R; ssR_rel : R; ds_rel : R }.

(** One lane of the pack, FillCutCellData.cpp:39-66 *)
Definition fractions_lane (b : R * R * R) : fractions :=
  let '(betaL, betaM, betaR) := b in
  let dBetaL := Rmax 0 (betaM - betaL) in
  let dBetaR := Rmax 0 (betaM - betaR) in
  let unshielded := Rmax 0 (betaM - Rmax dBetaL dBetaR) in
  let doubly_shielded := Rmin dBetaL dBetaR in
  let shielded_left := dBetaL - doubly_shielded in
  let shielded_right := dBetaR - doubly_shielded in
  let betaM := if Rle_dec betaM 0 then 1 else betaM in
  mkFr unshielded shielded_left shielded_right doubly_shielded
       (unshielded / betaM) (shielded_left / betaM) (shielded_right / betaM) (doubly_shielded / betaM).
(** FillCutCellData.cpp:69-92 *)
Definition fractions_single (b : R * R * R) : fractions :=
  let '(betaL, betaM, betaR) := b in
  let dBetaL := Rmax 0 (betaM - betaL) in
  let dBetaR := Rmax 0 (betaM - betaR) in
  let unshielded := Rmax 0 (betaM - Rmax dBetaL dBetaR) in
  let doubly_shielded := Rmin dBetaL dBetaR in
  let shielded_left := dBetaL - doubly_shielded in
  let shielded_right := dBetaR - doubly_shielded in
  let betaM := if Rlt_dec 0 betaM then betaM else 1 in
  mkFr unshielded shielded_left shielded_right doubly_shielded
       (unshielded / betaM) (shielded_left / betaM) (shielded_right / betaM) (doubly_shielded / betaM).
(** FillCutCellData.cpp:28-94 *)
Definition FillCutCellData_Row (w : nat) : list (R * R * R) -> option (list fractions) :=
  run_row w (map fractions_lane) fractions_single.

(** ** Stabilised fluxes *)

(** Vc clamp, KbnStabilisation.cpp:49-53, TimeIntegrator.cpp:59-63 *)
Definition vclamp (x lo hi : R) : R :=
  let x := if Rlt_dec x lo then lo else x in
  if Rlt_dec hi x then hi else x.
(** std::clamp *)
Definition sclamp (x lo hi : R) : R := if Rlt_dec x lo then lo else if Rlt_dec hi x then hi else x.

(** The inputs and outputs at one face, KbnStabilisation.cpp:32-47 *)
Record face_in := mkFI { regular : R; boundaryL : R; boundaryR : R; betaUS : R; betaL : R; betaR : R; centerL : R; centerR : R }.
Record face_out := mkFO { stable : R; shielded_left : R; shielded_right : R }.

(** One lane, KbnStabilisation.cpp:62-86 *)
Definition stable_lane (i : face_in) : face_out :=
  let dL := vclamp (1 / 2 - centerL i) 0 1 in
  let dR := vclamp (1 / 2 + centerR i) 0 1 in
  let dLm1 := 1 - dL in
  let dRm1 := 1 - dR in
  let f := regular i in
  let fsL := dL * f + dLm1 * boundaryL i in
  let fsR := dR * f + dRm1 * boundaryR i in
  mkFO (betaUS i * f + betaL i * fsL + betaR i * fsR) fsL fsR.
(** KbnStabilisation.cpp:90-103 *)
Definition stable_single (i : face_in) : face_out :=
  let dL := sclamp (1 / 2 - centerL i) 0 1 in
  let dR := sclamp (1 / 2 + centerR i) 0 1 in
  let f := regular i in
  let fsL := dL * f + (1 - dL) * boundaryL i in
  let fsR := dR * f + (1 - dR) * boundaryR i in
  mkFO (betaUS i * f + betaL i * fsL + betaR i * fsR) fsL fsR.
(** KbnStabilisation.cpp:55-105 *)
Definition ComputeStableFluxes_Row (w : nat) : list face_in -> option (list face_out) :=
  run_row w (map stable_lane) stable_single.

(** ** Update *)

(** FluxData and FaceData of one face, TimeIntegrator.cpp:34-51 *)
Record face_vals := mkFV { v_stab : R; v_un : R; v_left : R; v_right : R; v_beta : R; v_us : R; v_sL : R; v_sR : R }.
(** Everything the update of one cell reads, TimeIntegrator.cpp:53-57, 65-70 *)
Record cell_in := mkC { c_prev : R; c_L : face_vals; c_R : face_vals; c_fB : R; c_alpha : R; c_center : R }.

(** regular, lines 99 and 169-170 *)
Definition upd_regular (k : R) (c : cell_in) : R := c_prev c + k * (v_stab (c_L c) - v_stab (c_R c)).

(** left_greater, lines 104-124 (pack) and 175-191 (single); [clamp] is the clamp function used *)
Definition upd_left (clamp : R -> R -> R -> R) (k alpha : R) (c : cell_in) : R :=
  let dist := 1 / 2 + c_center c in
  let dBeta := clamp (v_sR (c_L c) * dist / alpha) 0 1 in
  let dF_us := v_un (c_L c) - v_stab (c_R c) in
  let dF_sL := v_left (c_L c) - v_stab (c_R c) in
  let dB := v_un (c_L c) - c_fB c in
  c_prev c + k * (v_us (c_L c) / alpha) * dF_us + k * (v_sL (c_L c) / alpha) * dF_sL + k * dBeta * dB.
(** right_greater, lines 129-149 (pack) and 196-212 (single) *)
Definition upd_right (clamp : R -> R -> R -> R) (k alpha : R) (c : cell_in) : R :=
  let dist := 1 / 2 - c_center c in
  let dBeta := clamp (v_sL (c_R c) * dist / alpha) 0 1 in
  let dF_us := v_stab (c_L c) - v_un (c_R c) in
  let dF_sR := v_stab (c_L c) - v_right (c_R c) in
  let dB := c_fB c - v_un (c_R c) in
  c_prev c + k * (v_us (c_R c) / alpha) * dF_us + k * (v_sR (c_R c) / alpha) * dF_sR + k * dBeta * dB.

(** The pack, lines 78-155: nothing is done for packs of covered cells; otherwise alpha is set to 1 in covered
    lanes (line 84) BEFORE the selections alpha > 0 of lines 151-154. *)
Definition update_pack (k : R) (cs : list cell_in) : list R :=
  if forallb (fun c => if Req_EM_T (c_alpha c) 0 then true else false) cs
  then map (fun _ => 0) cs
  else map (fun c =>
         let alpha := if Req_EM_T (c_alpha c) 0 then 1 else c_alpha c in
         let u := 0 in
         let u := if Rlt_dec 0 alpha then upd_regular k c else u in
         let u := if Rlt_dec 0 alpha then if Rlt_dec (v_beta (c_R c)) (v_beta (c_L c)) then upd_left vclamp k alpha c else u else u in
         let u := if Rlt_dec 0 alpha then if Rlt_dec (v_beta (c_L c)) (v_beta (c_R c)) then upd_right vclamp k alpha c else u else u in
         u) cs.
(** Lines 158-215 *)
Definition update_single (k : R) (c : cell_in) : R :=
  if Req_EM_T (c_alpha c) 0 then 0
  else if Req_EM_T (v_beta (c_L c)) (v_beta (c_R c)) then upd_regular k c
  else if Rlt_dec (v_beta (c_R c)) (v_beta (c_L c)) then upd_left sclamp k (c_alpha c) c
  else upd_right sclamp k (c_alpha c) c.
(** TimeIntegrator.cpp:65-221 *)
Definition UpdateConservatively_Row (w : nat) (k : R) : list cell_in -> option (list R) :=
  run_row w (update_pack k) (update_single k).

(** ** The whole step along a line of cells *)

(** Cell j lies between the faces j and j + 1.  [beta] are face fractions, [f] the regular (unshielded) fluxes of
    the faces, [fB] the boundary fluxes of the cells, [center] the boundary centroids in the direction. *)
Record line := mkLine { beta : Z -> R; flux : Z -> R; fB : Z -> R; center : Z -> R; volume : Z -> R; value : Z -> R }.

(** FillCutCellData.cpp:96-118: betaL and betaR are the neighbouring faces *)
Definition face_fractions (g : line) (j : Z) : fractions := fractions_single (beta g (j - 1)%Z, beta g j, beta g (j + 1)%Z).
(** KbnStabilisation.cpp:107-159: the relative fractions, the cell to the left is j - 1, the one to the right j *)
Definition face_fluxes (g : line) (j : Z) : face_out :=
  let a := face_fractions g j in
  stable_single (mkFI (flux g j) (fB g (j - 1)%Z) (fB g j) (us_rel a) (ssL_rel a) (ssR_rel a) (center g (j - 1)%Z) (center g j)).
(** TimeIntegrator.cpp:348-388: the absolute fractions *)
Definition face_values (g : line) (j : Z) : face_vals :=
  let a := face_fractions g j in
  let o := face_fluxes g j in
  mkFV (stable o) (flux g j) (shielded_left o) (shielded_right o) (beta g j) (us a) (ssL a) (ssR a).
Definition cell_inputs (g : line) (j : Z) : cell_in :=
  mkC (value g j) (face_values g j) (face_values g (j + 1)%Z) (fB g j) (volume g j) (center g j).
(** The new value of cell j *)
Definition step (g : line) (k : R) (j : Z) : R := update_single k (cell_inputs g j).
