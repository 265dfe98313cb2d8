(** Vocabulary for the properties of states, buffers and views. *)
From Coq Require Import String.
From Coq Require Import List ZArith.
From Verif Require Import ArrayModel ArraySpec StateModel.
Import ListNotations.

(** The values of a state in the order of its variables and components. *)
Definition values {X} (s : state X) : list X :=
  flat_map (fun v => match v with VarScalar x => [x] | VarVector xs => xs end) s.

(** A variable of a depth. *)
Definition of_depth {X} (d : depth) (v : variable X) : Prop :=
  match d, v with
  | ScalarDepth, VarScalar _ => True
  | VectorDepth n, VarVector xs => length xs = n
  | _, _ => False
  end.

(** A state of an equation with the given depths. *)
Definition of_depths {X} (ds : list depth) (s : state X) : Prop := Forall2 of_depth ds s.

(** The number of components of a state. *)
Definition total (ds : list depth) : nat :=
  list_sum (map (fun d => match d with ScalarDepth => 1%nat | VectorDepth n => n end) ds).

(** The name of every component: the name of the variable, with the number of the component if the
    variable does not have exactly one. *)
Definition component_names (names : list string) (ds : list depth) : list varname :=
  flat_map (fun nd => match snd nd with
                      | ScalarDepth | VectorDepth 1 => [Plain (fst nd)]
                      | VectorDepth n => map (Numbered (fst nd)) (seq 0 n)
                      end) (combine names ds).

Local Open Scope Z_scope.

(** Position of a cell in a patch with the side lengths [len]: the first direction is the fastest. *)
Fixpoint offset (len local : list Z) : Z :=
  match len, local with
  | l :: len', x :: local' => x + l * offset len' local'
  | _, _ => 0
  end.

(** Element of component [c] of the cell [i] in a patch that starts at the element [ptr], whose smallest
    cell is [lo] and whose side lengths are [len]: one component after the other. *)
Definition element (ptr : Z) (lo len i : list Z) (c : nat) : Z :=
  ptr + offset len (map (fun p => fst p - snd p) (combine i lo)) + Z.of_nat c * product len.

(** The box of cells of the patch. *)
Definition patch_box (lo len : list Z) : IndexBox := mkBox lo (map (fun p => fst p + snd p) (combine lo len)).

(** Lane [j] of a state of packs. *)
Definition lane {X} (d : X) (j : nat) (s : pack_state X) : state X :=
  map (fun v => match v with VarScalar l => VarScalar (nth j l d) | VarVector rows => VarVector (map (fun l => nth j l d) rows) end) s.

(** All packs have [w] lanes. *)
Definition width {X} (w : nat) (s : pack_state X) : Prop := Forall (fun l => length l = w) (values s).

(** The view of all variables of a patch: the patch has the cells [patch_box lo len] in the directions of
    the equation, one layer of cells in the [extra] remaining directions and [ncomp] components. *)
Definition patch_view (ptr : Z) (lo rest len : list Z) (ncomp : Z) (ds : list depth) : list vview :=
  MakeView (length len) (length len + length rest)
    (MakePatchDataView ptr (lo ++ rest) (len ++ repeat 1 (length rest)) ncomp) ds.

(** A box of cells with at least one cell in every direction. *)
Definition proper (rank : nat) (b : IndexBox) : Prop :=
  box_of_rank rank b /\ forall r, (r < rank)%nat -> nth r (lower b) 0 < nth r (upper b) 0.

(** Every cell of [b] is a cell of [b']. *)
Definition subbox (b b' : IndexBox) : Prop := forall i, in_box b i -> in_box b' i.
