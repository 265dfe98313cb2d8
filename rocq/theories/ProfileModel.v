(** src/AMReX/cutcell/initial_data/InterpolateFrom1d.cpp. Doubles are real numbers, two dimensions. *)
From Coq Require Import List ZArith Reals Bool.
Import ListNotations.
Local Open Scope R_scope.

(** Density, velocity and pressure, the arguments of CompleteFromPrim (lines 97-99, 109-111, 134-136). The complete state
    made from them is not modelled here. *)
Record prim := mkPrim { density : R; velocity : R; pressure : R }.

(** Lines 40-57: the data set, d0 rows with d1 columns in the file, row after row, is read, viewed as a column-major
    d1 x d0 matrix and transposed into a column-major d0 x d1 matrix. Entry idx of the buffer afterwards: *)
Definition raw_prim_data (file : nat -> R) (d0 d1 idx : nat) : R := file ((idx mod d0) * d1 + idx / d0)%nat.
(** Lines 72-75: view with size / 6 rows, column after column *)
Definition n_rows (d0 d1 : nat) : nat := (d0 * d1 / 6)%nat.
Definition raw_prims (file : nat -> R) (d0 d1 i k : nat) : R := raw_prim_data file d0 d1 (i + k * n_rows d0 d1).
(** Positions and values of the samples: columns 0 and 1, 2, 5 (lines 65-69) *)
Definition samples (file : nat -> R) (d0 d1 : nat) : list (R * prim) :=
  map (fun i => (raw_prims file d0 d1 i 0,
                 mkPrim (raw_prims file d0 d1 i 1) (raw_prims file d0 d1 i 2) (raw_prims file d0 d1 i 5)))
      (seq 0 (n_rows d0 d1)).

(** std::lower_bound for a sorted range: index of the first entry that is not less than v, or the length *)
Fixpoint lower_bound (xs : list R) (v : R) : nat :=
  match xs with
  | [] => 0
  | x :: r => if Rlt_dec x v then S (lower_bound r v) else 0
  end.
(** std::accumulate from 0.0 over n consecutive entries, divided by n *)
Definition mean_of (l : list R) : R := fold_left Rplus l 0 / INR (length l).

(** Lines 85-139 for one cell with lower and upper end xlo, xhi in the first direction. None: access outside of the
    profile. *)
Definition cell_value (profile : list (R * prim)) (xlo xhi : R) : option prim :=
  let xs := map fst profile in
  let xs_lo := S (lower_bound xs xlo) in
  let xs_up := lower_bound xs xhi in
  if (length xs <=? xs_up)%nat then
    match length xs with O => None | S ilast => nth_error (map snd profile) ilast end
  else if negb (xs_lo <? xs_up)%nat then nth_error (map snd profile) xs_up
  else
    let part := firstn (xs_up - xs_lo) (skipn xs_lo (map snd profile)) in
    Some (mkPrim (mean_of (map density part)) (mean_of (map velocity part)) (mean_of (map pressure part))).

(** Geometry::LoNode and HiNode in the first direction: problo + i dx *)
Definition LoNode (problo dx : R) (i : Z) : R := problo + IZR i * dx.
Definition HiNode (problo dx : R) (i : Z) : R := problo + (IZR i + 1) * dx.

(** Lines 82-141: every cell of the tile box with positive volume fraction is set; result None if some cell accesses data
    outside of the profile *)
Definition InitializeCell (profile : list (R * prim)) (problo dx : R) (alpha : Z -> Z -> R) (old : Z -> Z -> prim) (i j : Z) : option prim :=
  if Rlt_dec 0 (alpha i j) then cell_value profile (LoNode problo dx i) (HiNode problo dx i) else Some (old i j).
