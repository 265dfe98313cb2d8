(** Vocabulary for C153: points, cells and boxes of cells. *)
From Coq Require Import List Reals ZArith.
From Verif Require Import RegionModel.
Import ListNotations.
Local Open Scope R_scope.

(** x lies in the closed cell i *)
Definition in_cell (a : axis) (i : Z) (x : R) : Prop := a_offset a + a_dx a * IZR i <= x <= a_offset a + a_dx a * (IZR i + 1).
Definition middle (a : axis) (i : Z) : R := ((a_offset a + a_dx a * IZR i) + (a_offset a + a_dx a * (IZR i + 1))) / 2.
(** An axis with cells *)
Definition proper (a : axis) : Prop := 0 < a_dx a /\ (a_small a <= a_big a)%Z.
(** The same in several dimensions, axis by axis *)
Definition cell_contains (g : list axis) (idx : list Z) (x : list R) : Prop := length idx = length g /\ length x = length g /\
  forall d a i y, nth_error g d = Some a -> nth_error idx d = Some i -> nth_error x d = Some y -> in_cell a i y.
Definition in_box (b : list (Z * Z)) (idx : list Z) : Prop := length idx = length b /\
  forall d l i, nth_error b d = Some l -> nth_error idx d = Some i -> (fst l <= i <= snd l)%Z.
Definition domain (g : list axis) : list (Z * Z) := map (fun a => (a_small a, a_big a)) g.
Definition in_region (r : list (R * R)) (x : list R) : Prop := length x = length r /\
  forall d l y, nth_error r d = Some l -> nth_error x d = Some y -> fst l <= y <= snd l.
