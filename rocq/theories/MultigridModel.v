(** Model of the kernels of the node centred multigrid solver for the pressure equation, in two dimensions: smoothers, transfer between grids, walls.
    Sources (paths relative to /repo):
    - src/AMReX/MLMG/MLNodeHelmDualCstVel_2D_K.cpp (below: 2D_K)
    - src/AMReX/MLMG/MLNodeHelmDualCstVel_K.cpp (below: K)
    - src/AMReX/MLMG/MLNodeHelmDualCstVel.cpp
    An array is a function from pairs of integers, a mask is a function to bool. *)
From Coq Require Import List Reals ZArith Bool.
From Verif Require Import LowMachModel.
Import ListNotations.
Local Open Scope R_scope.

(** A masked node is a node with a Dirichlet condition *)
Definition mask := Z -> Z -> bool.
(** Assignment to one element of an array *)
Definition upd (x : field) (i j : Z) (v : R) : field := fun a b => if Z.eqb a i && Z.eqb b j then v else x a b.

(** 2D_K:342-380 [mlndhelm_adotx_aa], 314-340 [mlndhelm_adotx_ha] with the mask *)
Definition masked (msk : mask) (A : field -> field) (x : field) : field := fun i j => if msk i j then 0 else A x i j.

(** * Smoothers *)
(** 2D_K:400-420: the divisor of [mlndhelm_normalize_aa] *)
Definition normalize_div_aa (o : linop) (dx : bool -> R) (i j : Z) : R :=
  let facx := 1 / 4 * (1 / dx true) * (1 / dx true) in
  let facy := 1 / 4 * (1 / dx false) * (1 / dx false) in
  let facxy := 1 / 4 * (1 / dx true) * (1 / dx false) in
  let fxy := facx + facy in
  let im := (i - 1)%Z in let jm := (j - 1)%Z in
  let sig := sigma o in let c0 := sigc0 o in let c1 := sigc1 o in
  -1 * fxy * (sig im jm + sig i jm + sig im j + sig i j)
  + facxy * (- c0 im jm + c0 i jm + c0 im j - c0 i j - c1 im jm + c1 i jm + c1 im j - c1 i j) + alpha o i j.
(** 2D_K:400-420 [mlndhelm_normalize_aa] *)
Definition normalize_aa (msk : mask) (o : linop) (dx : bool -> R) (x : field) : field := fun i j =>
  if msk i j then x i j else x i j / normalize_div_aa o dx i j.

(** 2D_K:382-397 [mlndhelm_normalize_ha] *)
Definition normalize_div_ha (sx sy : field) (dx : bool -> R) (i j : Z) : R :=
  let facx := 1 / 4 * (1 / dx true) * (1 / dx true) in
  let facy := 1 / 4 * (1 / dx false) * (1 / dx false) in
  let im := (i - 1)%Z in let jm := (j - 1)%Z in
  -1 * (facx * (sx im jm + sx i jm + sx im j + sx i j) + facy * (sy im jm + sy i jm + sy im j + sy i j)).
(** 2D_K:382-397 [mlndhelm_normalize_ha]: the assignment *)
Definition normalize_ha (msk : mask) (sx sy : field) (dx : bool -> R) (x : field) : field := fun i j =>
  if msk i j then x i j else x i j / normalize_div_ha sx sy dx i j.

(** 2D_K:443-464 [mlndhelm_jacobi_aa]: the nodes of a box; [Ax] has been computed before *)
Definition jacobi_div_aa (o : linop) (dx : bool -> R) (i j : Z) : R :=
  let fac := -1 * (1 / 4) * ((1 / dx true) * (1 / dx true) + (1 / dx false) * (1 / dx false)) in
  let facc := 1 / 4 * (1 / dx true) * (1 / dx false) in
  let im := (i - 1)%Z in let jm := (j - 1)%Z in
  let sig := sigma o in let c0 := sigc0 o in let c1 := sigc1 o in
  fac * (sig im jm + sig i jm + sig im j + sig i j)
  + facc * (- c0 im jm + c0 i jm + c0 im j - c0 i j - c1 im jm + c1 i jm + c1 im j - c1 i j) + alpha o i j.
(** 2D_K:443-464 [mlndhelm_jacobi_aa]: the assignment, for all nodes *)
Definition jacobi_aa (msk : mask) (o : linop) (dx : bool -> R) (Ax rhs sol : field) : field := fun i j =>
  if msk i j then 0 else sol i j + 2 / 3 * (rhs i j - Ax i j) / jacobi_div_aa o dx i j.

(** 2D_K:422-441 [mlndhelm_jacobi_ha] *)
Definition jacobi_div_ha (sx sy : field) (dx : bool -> R) (i j : Z) : R :=
  let facx := -1 * (1 / 4) * (1 / dx true) * (1 / dx true) in
  let facy := -1 * (1 / 4) * (1 / dx false) * (1 / dx false) in
  let im := (i - 1)%Z in let jm := (j - 1)%Z in
  facx * (sx im jm + sx i jm + sx im j + sx i j) + facy * (sy im jm + sy i jm + sy im j + sy i j).
(** 2D_K:422-441 [mlndhelm_jacobi_ha]: the assignment, for all nodes *)
Definition jacobi_ha (msk : mask) (sx sy : field) (dx : bool -> R) (Ax rhs sol : field) : field := fun i j =>
  if msk i j then 0 else sol i j + 2 / 3 * (rhs i j - Ax i j) / jacobi_div_ha sx sy dx i j.

(** 2D_K:521-541: the two numbers s0 and Ax of [mlndhelm_gauss_seidel_aa] *)
Definition gs_div_aa (o : linop) (dx : bool -> R) (i j : Z) : R :=
  let facx := 1 / 4 * (1 / dx true) * (1 / dx true) in
  let facy := 1 / 4 * (1 / dx false) * (1 / dx false) in
  let facxy := 1 / 4 * (1 / dx true) * (1 / dx false) in
  let fxy := facx + facy in
  let im := (i - 1)%Z in let jm := (j - 1)%Z in
  let sig := sigma o in let c0 := sigc0 o in let c1 := sigc1 o in
  -1 * fxy * (sig im jm + sig i jm + sig im j + sig i j)
  + facxy * (- c0 im jm + c0 i jm + c0 im j - c0 i j - c1 im jm + c1 i jm + c1 im j - c1 i j) + alpha o i j.
(** 2D_K:525-541: Ax of [mlndhelm_gauss_seidel_aa] *)
Definition gs_Ax_aa (o : linop) (dx : bool -> R) (sol : field) (i j : Z) : R :=
  let facx := 1 / 4 * (1 / dx true) * (1 / dx true) in
  let facy := 1 / 4 * (1 / dx false) * (1 / dx false) in
  let facxy := 1 / 4 * (1 / dx true) * (1 / dx false) in
  let fxy := facx + facy in let fxmy := facx - facy in let fmxy := facy - facx in
  let im := (i - 1)%Z in let ip := (i + 1)%Z in let jm := (j - 1)%Z in let jp := (j + 1)%Z in
  let sig := sigma o in let c0 := sigc0 o in let c1 := sigc1 o in
  sol im jm * fxy * sig im jm + sol ip jm * fxy * sig i jm + sol im jp * fxy * sig im j + sol ip jp * fxy * sig i j
  + sol im j * fxmy * (sig im jm + sig im j) + sol ip j * fxmy * (sig i jm + sig i j)
  + sol i jm * fmxy * (sig im jm + sig i jm) + sol i jp * fmxy * (sig im j + sig i j)
  + sol im jm * facxy * (c0 im jm + c1 im jm)
  - sol ip jm * facxy * (c0 i jm + c1 i jm)
  - sol im jp * facxy * (c0 im j + c1 im j)
  + sol ip jp * facxy * (c0 i j + c1 i j)
  + sol im j * facxy * (- c0 im jm + c0 im j + c1 im jm - c1 im j)
  + sol ip j * facxy * (c0 i jm - c0 i j - c1 i jm + c1 i j)
  + sol i jm * facxy * (c0 im jm - c0 i jm - c1 im jm + c1 i jm)
  + sol i jp * facxy * (- c0 im j + c0 i j + c1 im j - c1 i j)
  + sol i j * gs_div_aa o dx i j.

(** 2D_K:480-495: the same of [mlndhelm_gauss_seidel_ha] *)
Definition gs_div_ha (sx sy : field) (dx : bool -> R) (i j : Z) : R :=
  let facx := 1 / 4 * (1 / dx true) * (1 / dx true) in
  let facy := 1 / 4 * (1 / dx false) * (1 / dx false) in
  let im := (i - 1)%Z in let jm := (j - 1)%Z in
  -1 * (facx * (sx im jm + sx i jm + sx im j + sx i j) + facy * (sy im jm + sy i jm + sy im j + sy i j)).
(** 2D_K:483-495: Ax of [mlndhelm_gauss_seidel_ha]; sx in place of sy in two terms is in the code *)
Definition gs_Ax_ha (sx sy : field) (dx : bool -> R) (sol : field) (i j : Z) : R :=
  let facx := 1 / 4 * (1 / dx true) * (1 / dx true) in
  let facy := 1 / 4 * (1 / dx false) * (1 / dx false) in
  let im := (i - 1)%Z in let ip := (i + 1)%Z in let jm := (j - 1)%Z in let jp := (j + 1)%Z in
  sol im jm * (facx * sx im jm + facy * sy im jm) + sol ip jm * (facx * sx i jm + facy * sy i jm)
  + sol im jp * (facx * sx im j + facy * sy im j) + sol ip jp * (facx * sx i j + facy * sy i j)
  + sol im j * (facx * (sx im jm + sx im j) - facy * (sy im jm + sx im j))
  + sol ip j * (facx * (sx i jm + sx i j) - facy * (sy i jm + sx i j))
  + sol i jm * (- facx * (sx im jm + sx i jm) + facy * (sy im jm + sy i jm))
  + sol i jp * (- facx * (sx im j + sx i j) + facy * (sy im j + sy i j))
  + sol i j * gs_div_ha sx sy dx i j.

(** 2D_K:503-550 and 467-500: one node of the loop over the nodes of a box *)
Definition gs_node (msk : mask) (s0 : Z -> Z -> R) (Ax : field -> Z -> Z -> R) (rhs sol : field) (p : Z * Z) : field :=
  let '(i, j) := p in
  if msk i j then upd sol i j 0 else upd sol i j (sol i j + (rhs i j - Ax sol i j) / s0 i j).
(** 2D_K:503-550 [mlndhelm_gauss_seidel_aa]; the nodes of the box as a list, in the order of the loop *)
Definition gauss_seidel_aa (msk : mask) (o : linop) (dx : bool -> R) (rhs : field) (bx : list (Z * Z)) (sol : field) : field :=
  fold_left (gs_node msk (gs_div_aa o dx) (gs_Ax_aa o dx) rhs) bx sol.
(** 2D_K:467-500 [mlndhelm_gauss_seidel_ha]; likewise *)
Definition gauss_seidel_ha (msk : mask) (sx sy : field) (dx : bool -> R) (rhs : field) (bx : list (Z * Z)) (sol : field) : field :=
  fold_left (gs_node msk (gs_div_ha sx sy dx) (gs_Ax_ha sx sy dx) rhs) bx sol.

(** MLNodeHelmDualCstVel.cpp:942-990 [Fsmooth] for the finest grid: every box has its own copy of the array and makes two sweeps;
    nodalSync then takes for every node the value of the box which owns it *)
Definition Fsmooth (boxes : list (list (Z * Z))) (owner : Z -> Z -> option nat) (msk : mask) (o : linop) (dx : bool -> R) (rhs sol : field) : field := fun i j =>
  match owner i j with
  | None => sol i j
  | Some b => gauss_seidel_aa msk o dx rhs (nth b boxes []) (gauss_seidel_aa msk o dx rhs (nth b boxes []) sol) i j
  end.

(** * Transfer *)
(** 2D_K:553-570 [mlndhelm_restriction] *)
Definition restriction (msk : mask) (fine : field) : field := fun i j =>
  let ii := (i * 2)%Z in let jj := (j * 2)%Z in
  if msk ii jj then 0
  else 1 / 16 * (fine (ii - 1)%Z (jj - 1)%Z + 2 * fine ii (jj - 1)%Z + fine (ii + 1)%Z (jj - 1)%Z
      + 2 * fine (ii - 1)%Z jj + 4 * fine ii jj + 2 * fine (ii + 1)%Z jj
      + fine (ii - 1)%Z (jj + 1)%Z + 2 * fine ii (jj + 1)%Z + fine (ii + 1)%Z (jj + 1)%Z).

(** 2D_K:575-590 [aa_interp_line_x], [aa_interp_line_y] *)
Definition interp_line_x (crse sig : field) (i j ic jc : Z) : R :=
  let w1 := sig (i - 1)%Z (j - 1)%Z + sig (i - 1)%Z j in
  let w2 := sig i (j - 1)%Z + sig i j in
  (w1 * crse ic jc + w2 * crse (ic + 1)%Z jc) / (w1 + w2).
(** 2D_K:584-590 [aa_interp_line_y] *)
Definition interp_line_y (crse sig : field) (i j ic jc : Z) : R :=
  let w1 := sig (i - 1)%Z (j - 1)%Z + sig i (j - 1)%Z in
  let w2 := sig (i - 1)%Z j + sig i j in
  (w1 * crse ic jc + w2 * crse ic (jc + 1)%Z) / (w1 + w2).

(** 2D_K:635-648 [ha_interp_face_xy]; [aa_interp_face_xy] (593-605) is the same with one coefficient *)
Definition interp_face_xy (crse sigx sigy : field) (i j ic jc : Z) : R :=
  let w1 := sigx (i - 1)%Z (j - 1)%Z + sigx (i - 1)%Z j in
  let w2 := sigx i (j - 1)%Z + sigx i j in
  let w3 := sigy (i - 1)%Z (j - 1)%Z + sigy i (j - 1)%Z in
  let w4 := sigy (i - 1)%Z j + sigy i j in
  (w1 * interp_line_y crse sigy (i - 1) j ic jc + w2 * interp_line_y crse sigy (i + 1) j (ic + 1) jc
   + w3 * interp_line_x crse sigx i (j - 1) ic jc + w4 * interp_line_x crse sigx i (j + 1) ic (jc + 1)) / (w1 + w2 + w3 + w4).

(** 2D_K:651-676 [mlndhelm_interpadd_ha]; [mlndhelm_interpadd_aa] (608-631) is the same with one coefficient; amrex::coarsen rounds down *)
Definition interpadd (msk : mask) (sigx sigy crse fine : field) : field := fun i j =>
  if msk i j then fine i j
  else
    let ic := (i / 2)%Z in let jc := (j / 2)%Z in
    let i_is_odd := negb (Z.eqb (ic * 2) i) in
    let j_is_odd := negb (Z.eqb (jc * 2) j) in
    fine i j + (if i_is_odd && j_is_odd then interp_face_xy crse sigx sigy i j ic jc
                else if i_is_odd then interp_line_x crse sigx i j ic jc
                else if j_is_odd then interp_line_y crse sigy i j ic jc
                else crse ic jc).

(** 2D_K:182-198 [mlndhelm_avgdown_coeff_x], [mlndhelm_avgdown_coeff_y] *)
Definition avgdown_coeff_x (fine : field) : field := fun i j =>
  let a := fine (2 * i)%Z (2 * j)%Z + fine (2 * i)%Z (2 * j + 1)%Z in
  let b := fine (2 * i + 1)%Z (2 * j)%Z + fine (2 * i + 1)%Z (2 * j + 1)%Z in
  a * b / (a + b).
(** 2D_K:191-198 [mlndhelm_avgdown_coeff_y] *)
Definition avgdown_coeff_y (fine : field) : field := fun i j =>
  let a := fine (2 * i)%Z (2 * j)%Z + fine (2 * i + 1)%Z (2 * j)%Z in
  let b := fine (2 * i)%Z (2 * j + 1)%Z + fine (2 * i + 1)%Z (2 * j + 1)%Z in
  a * b / (a + b).

(** * Walls *)
(** A box: the lower and the upper index in the two directions (true is x) *)
Record box := mkBox { blo : bool -> Z; bhi : bool -> Z }.
(** AMReX_Box.H: [contains], [strictly_contains], [grow] *)
Definition contains (b : box) (i j : Z) : bool :=
  Z.leb (blo b true) i && Z.leb i (bhi b true) && Z.leb (blo b false) j && Z.leb j (bhi b false).
(** AMReX_Box.H [strictly_contains], as used in 2D_K:212 *)
Definition strictly_contains (b c : box) : bool :=
  Z.ltb (blo b true) (blo c true) && Z.ltb (blo b false) (blo c false) && Z.ltb (bhi c true) (bhi b true) && Z.ltb (bhi c false) (bhi b false).

(** 2D_K:205-217: the part of the surroundings which is filled otherwise *)
Definition gdomain (domain : box) (bflo bfhi : bool -> bool) : box :=
  mkBox (fun d => if bflo d then blo domain d else (blo domain d - 1)%Z) (fun d => if bfhi d then bhi domain d else (bhi domain d + 1)%Z).

(** 2D_K:224-308: one point of the loop; [offset] is 0 for cells and 1 for nodes *)
Definition bc_value (domain : box) (offset : Z) (bflo bfhi : bool -> bool) (a : field) (i j : Z) : R :=
  let dlox := blo domain true in let dloy := blo domain false in let dhix := bhi domain true in let dhiy := bhi domain false in
  let fx := bflo true in let fy := bflo false in let gx := bfhi true in let gy := bfhi false in
  let up k := (k + 1 + offset)%Z in let down k := (k - 1 - offset)%Z in
  if Z.eqb i (dlox - 1) && Z.eqb j (dloy - 1) && (fx || fy) then
    if fx && fy then a (up i) (up j) else if fx then a (up i) j else if fy then a i (up j) else a i j
  else if Z.eqb i (dhix + 1) && Z.eqb j (dloy - 1) && (gx || fy) then
    if gx && fy then a (down i) (up j) else if gx then a (down i) j else if fy then a i (up j) else a i j
  else if Z.eqb i (dlox - 1) && Z.eqb j (dhiy + 1) && (fx || gy) then
    if fx && gy then a (up i) (down j) else if fx then a (up i) j else if gy then a i (down j) else a i j
  else if Z.eqb i (dhix + 1) && Z.eqb j (dhiy + 1) && (gx || gy) then
    if gx && gy then a (down i) (down j) else if gx then a (down i) j else if gy then a i (down j) else a i j
  else if Z.eqb i (dlox - 1) && fx then a (up i) j
  else if Z.eqb i (dhix + 1) && gx then a (down i) j
  else if Z.eqb j (dloy - 1) && fy then a i (up j)
  else if Z.eqb j (dhiy + 1) && gy then a i (down j)
  else a i j.
(** 2D_K:200-310 [mlndhelm_bc_doit]: [points] are the points of the box and its neighbours, in the order in which the parallel loop visits them *)
Definition bc_doit (vbx domain : box) (offset : Z) (bflo bfhi : bool -> bool) (points : list (Z * Z)) (a : field) : field :=
  let g := gdomain domain bflo bfhi in
  if strictly_contains g vbx then a
  else fold_left (fun a p => if contains g (fst p) (snd p) then a else upd a (fst p) (snd p) (bc_value domain offset bflo bfhi a (fst p) (snd p))) points a.

(** K:68-93 [mlndhelm_scale_neumann_bc]; [wlo], [whi]: a wall or an inflow at the lower and upper side *)
Definition scale_side (s : R) (touches : bool) (bdry : box) (rhs : field) : field := fun i j =>
  if touches && contains bdry i j then rhs i j * s else rhs i j.
(** AMReX_Box.H [bdryLo] of a box of nodes, as used in K:75 *)
Definition bdryLo (b : box) (d : bool) : box := mkBox (blo b) (fun e => if Bool.eqb d e then blo b d else bhi b e).
(** AMReX_Box.H [bdryHi] of a box of nodes, as used in K:84 *)
Definition bdryHi (b : box) (d : bool) : box := mkBox (fun e => if Bool.eqb d e then bhi b d else blo b e) (bhi b).
(** K:68-93 [mlndhelm_scale_neumann_bc]: both sides of both directions *)
Definition scale_neumann (s : R) (bx nddom : box) (wlo whi : bool -> bool) (rhs : field) : field :=
  let direction d rhs :=
    scale_side s (whi d && Z.eqb (bhi (bdryHi bx d) d) (bhi nddom d)) (bdryHi bx d)
      (scale_side s (wlo d && Z.eqb (blo (bdryLo bx d) d) (blo nddom d)) (bdryLo bx d) rhs) in
  direction false (direction true rhs).
(** K:96-102 [mlndhelm_impose_neumann_bc] *)
Definition impose_neumann := scale_neumann 2.
(** K:104-110 [mlndhelm_unimpose_neumann_bc] *)
Definition unimpose_neumann := scale_neumann (1 / 2).
