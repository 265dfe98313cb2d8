(** Vocabulary for C156: domains of levels. *)
From Coq Require Import List ZArith.
Import ListNotations.
Local Open Scope Z_scope.

(** The bounds of an axis with n cells from lo on, refined k times by the ratio r: it starts at lo r^k and has n r^k cells *)
Definition refined_axis (k : nat) (r : Z) (lo n : Z) : Z * Z := (lo * r ^ Z.of_nat k, lo * r ^ Z.of_nat k + n * r ^ Z.of_nat k - 1).
(** A domain: the ratio, the first cell and the number of cells of each axis *)
Definition domain_at (k : nat) (axes : list (Z * (Z * Z))) : list (Z * Z) := map (fun a => refined_axis k (fst a) (fst (snd a)) (snd (snd a))) axes.
