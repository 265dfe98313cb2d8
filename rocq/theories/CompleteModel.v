(** Completion of conservative states on patches, one cell at a time and with vectors.
    Source: include/fub/CompleteFromCons.hpp. *)
From Coq Require Import List Arith.
Import ListNotations.

(** A row of a view is a list of states. Reading or writing outside of it is undefined behaviour: None.
    Load(cons, in), CompleteFromCons.hpp:161: [w] is kDefaultChunkSize, [k] the position of the pointer *)
Definition Load {A : Type} (w : nat) (row : list A) (k : nat) : option (list A) :=
  if (k + w <=? length row)%nat then Some (firstn w (skipn k row)) else None.

(** LoadN(cons, in, n), CompleteFromCons.hpp:168 and StateArray.hpp:425-450: the other lanes keep the values of [old] *)
Definition LoadN {A : Type} (old : list A) (row : list A) (k n : nat) : option (list A) :=
  if (k + n <=? length row)%nat then Some (firstn n (skipn k row) ++ skipn n old) else None.

(** Store(out, complete), CompleteFromCons.hpp:163: every lane is written *)
Definition Store {B : Type} (row : list B) (k : nat) (lanes : list B) : option (list B) :=
  if (k + length lanes <=? length row)%nat then Some (firstn k row ++ lanes ++ skipn (k + length lanes) row) else None.

(** StoreN(out, complete, n), CompleteFromCons.hpp:170: the first [n] lanes are written *)
Definition StoreN {B : Type} (row : list B) (k : nat) (lanes : list B) (n : nat) : option (list B) := Store row k (firstn n lanes).

(** The call of CompleteFromCons on arrays, CompleteFromCons.hpp:162, 169: each lane of the target [complete] changes by [lane], given its old value *)
Definition CompleteArray {A B : Type} (lane : B -> A -> B) (complete : list B) (conss : list A) : list B :=
  map (fun bc => lane (fst bc) (snd bc)) (combine complete conss).

(** CompleteFromCons.hpp:142-170: the loop and the rest of a row, [k] is the distance of both pointers to their start; [arrays] are cons_array_ and complete_array_ of the object,
    which keep the values of the last chunk. [fuel] bounds the steps, None without fuel. *)
Fixpoint CompleteRow {A B : Type} (w : nat) (lane : B -> A -> B) (fuel : nat) (cons_row : list A) (complete_row : list B) (k : nat) (arrays : list A * list B)
    : option (list B * (list A * list B)) :=
  match fuel with
  | O => None
  | S fuel =>
    let n := (length cons_row - k)%nat in
    if (w <=? n)%nat then
      match Load w cons_row k with
      | None => None
      | Some conss =>
        let complete := CompleteArray lane (snd arrays) conss in
        match Store complete_row k complete with
        | None => None
        | Some complete_row => CompleteRow w lane fuel cons_row complete_row (k + w)%nat (conss, complete)
        end
      end
    else
      match LoadN (fst arrays) cons_row k n with
      | None => None
      | Some conss =>
        let complete := CompleteArray lane (snd arrays) conss in
        match StoreN complete_row k complete n with Some complete_row => Some (complete_row, (conss, complete)) | None => None end
      end
  end.

(** CompleteFromCons.hpp:174-180, 199-203 with SimdTag or OpenMpSimdTag: all rows of the views *)
Fixpoint CompleteSimd {A B : Type} (w : nat) (lane : B -> A -> B) (rows : list (list A * list B)) (arrays : list A * list B) : option (list (list B) * (list A * list B)) :=
  match rows with
  | [] => Some ([], arrays)
  | (cons_row, complete_row) :: rows =>
    match CompleteRow w lane (S (length cons_row)) cons_row complete_row 0 arrays with
    | None => None
    | Some (out, arrays) => match CompleteSimd w lane rows arrays with Some (outs, arrays) => Some (out :: outs, arrays) | None => None end
    end
  end.

(** CompleteFromCons.hpp:182-191 and 193-197 (SequentialTag, OpenMpTag): one step for each of the next [count] cells from position [k] of a row; the bounds are those of cons_view *)
Fixpoint CompleteCells {A B : Type} (scalar : B -> A -> B) (count : nat) (cons_row : list A) (complete_row : list B) (k : nat) (complete : B) : option (list B * B) :=
  match count with
  | O => Some (complete_row, complete)
  | S count =>
    match nth_error cons_row k with
    | None => None
    | Some conss =>
      let complete := scalar complete conss in
      match Store complete_row k [complete] with
      | None => None
      | Some complete_row => CompleteCells scalar count cons_row complete_row (S k) complete
      end
    end
  end.

(** CompleteFromCons.hpp:182-191: all cells of the views, row by row *)
Fixpoint CompleteSeq {A B : Type} (scalar : B -> A -> B) (rows : list (list A * list B)) (complete : B) : option (list (list B) * B) :=
  match rows with
  | [] => Some ([], complete)
  | (cons_row, complete_row) :: rows =>
    match CompleteCells scalar (length cons_row) cons_row complete_row 0 complete with
    | None => None
    | Some (out, complete) => match CompleteSeq scalar rows complete with Some (outs, complete) => Some (out :: outs, complete) | None => None end
    end
  end.

(** CompleteFromCons.hpp:126-138: the free function, with the bounds of complete_view and a new state *)
Fixpoint CompleteView {A B : Type} (scalar : B -> A -> B) (rows : list (list A * list B)) (complete : B) : option (list (list B) * B) :=
  match rows with
  | [] => Some ([], complete)
  | (cons_row, complete_row) :: rows =>
    match CompleteCells scalar (length complete_row) cons_row complete_row 0 complete with
    | None => None
    | Some (out, complete) => match CompleteView scalar rows complete with Some (outs, complete) => Some (out :: outs, complete) | None => None end
    end
  end.
