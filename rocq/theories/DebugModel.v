(** src/AMReX/output/DebugOutput.cpp: storage of fields for debugging and the names under which they are written. *)
From Coq Require Import Reals String List Arith Bool DecimalString.
Import ListNotations.

(** fmt::format("{}", k) of a number that is not negative *)
Definition decimal (k : nat) : string := NilEmpty.string_of_uint (Nat.to_uint k).
(** fmt::format("{}_{}", name, k), lines 331 and 351, and the suffixes of lines 328 and 347 *)
Definition numbered (name : string) (k : nat) : string := (name ++ "_" ++ decimal k)%string.
(** fmt::format("{}-{}", directory, k), lines 483 and 485 *)
Definition numbered_dir (dir : string) (k : nat) : string := (dir ++ "-" ++ decimal k)%string.

(** The loops of lines 330-334 and 350-354: every name equal to the candidate gets the next number *)
Fixpoint renumber (candidate : string) (counter : nat) (names : list string) : list string * nat :=
  match names with
  | [] => ([], counter)
  | x :: r =>
    if String.eqb x candidate then let (r', k) := renumber candidate (S counter) r in (numbered x counter :: r', k)
    else let (r', k) := renumber candidate counter r in (x :: r', k)
  end.
(** The loop over later hierarchies, lines 336-356 *)
Fixpoint renumber_all (candidate : string) (counter : nat) (hs : list (list string)) : list (list string) * nat :=
  match hs with
  | [] => ([], counter)
  | h :: r => let (h', k) := renumber candidate counter h in let (r', k') := renumber_all candidate k r in (h' :: r', k')
  end.
(** One pass of the loop over the names of a hierarchy, lines 321-357: the name itself gets the number 0 as soon as another
    one is found, whose number is then 1 *)
Definition unique_step (n : string) (names : list string) (others : list (list string)) : string * list string * list (list string) :=
  let (names', k) := renumber n 1 names in
  let (others', k') := renumber_all n k others in
  (if (k' =? 1)%nat then n else numbered n 0, names', others').
(** Loop of lines 321-357; fuel is the number of names *)
Fixpoint unique_row (fuel : nat) (names : list string) (others : list (list string)) : list string * list (list string) :=
  match fuel, names with
  | S f, n :: r =>
    let '(n', r', others') := unique_step n r others in
    let (r'', others'') := unique_row f r' others' in (n' :: r'', others'')
  | _, _ => (names, others)
  end.
(** Loop of lines 318-359; fuel is the number of hierarchies *)
Fixpoint unique_all (fuel : nat) (hs : list (list string)) : list (list string) :=
  match fuel, hs with
  | S f, h :: t => let (h', t') := unique_row (length h) h t in h' :: unique_all f t'
  | _, _ => hs
  end.
(** DebugSnapshot::MakeUniqueComponentNames, lines 314-360 *)
Definition MakeUniqueComponentNames (names_per_hierarchy : list (list string)) : list (list string) :=
  unique_all (length names_per_hierarchy) names_per_hierarchy.

(** FlushData, lines 507 and 516-579, as far as names are concerned: after names are made unique, the averages of fields on
    nodes and faces are saved in addition, with a suffix. on_nodes says for each hierarchy whether it is on cells (None),
    nodes (Some true) or faces (Some false). *)
Definition averaged_name (on_nodes : bool) (name : string) : string := (name ++ if on_nodes then "_nd2cellavg" else "_fc2cellavg")%string.
Fixpoint averaged (locations : list (option bool)) (names : list (list string)) : list (list string) :=
  match locations, names with
  | Some b :: ls, h :: hs => map (averaged_name b) h :: averaged ls hs
  | None :: ls, h :: hs => averaged ls hs
  | _, _ => []
  end.
(** All names after the averages have been added, line 576 *)
Definition flush_names (locations : list (option bool)) (names : list (list string)) : list (list string) :=
  let u := MakeUniqueComponentNames names in u ++ averaged locations u.
(** AverageFaceToCell, lines 167-196, along one line of cells: the face with the index of a cell is its lower one *)
Definition AverageFaceToCell (faces : nat -> R) (cell : nat) : R := (1 / 2 * faces cell + 1 / 2 * faces (S cell))%R.

(** The for loop of AddSnapshot, lines 480-487: new directories, the candidate, the counter and whether something changed *)
Fixpoint add_pass (base : string) (snaps : list string) (dir : string) (counter : nat) : list string * string * nat * bool :=
  match snaps with
  | [] => ([], dir, counter, false)
  | s :: r =>
    if String.eqb s dir then
      let '(r', d, c, _) := add_pass base r (numbered_dir base (S counter)) (S counter) in (numbered_dir base counter :: r', d, c, true)
    else let '(r', d, c, m) := add_pass base r dir counter in (s :: r', d, c, m)
  end.
(** The do loop, lines 478-488; None: more passes than fuel *)
Fixpoint add_loop (fuel : nat) (base : string) (snaps : list string) (dir : string) (counter : nat) : option (list string * string) :=
  match fuel with
  | O => None
  | S f =>
    let '(snaps', d, c, m) := add_pass base snaps dir counter in
    if m then add_loop f base snaps' d c else Some (snaps', d)
  end.
(** DebugStorage::AddSnapshot, lines 471-493, on the list of directories of an enabled storage: the new snapshot is appended
    with an empty directory first and takes part in the loops *)
Definition AddSnapshot (dirs : list string) (base : string) : option (list string) :=
  match add_loop (S (S (length dirs))) base (dirs ++ [EmptyString]) base 0 with
  | Some (snaps, d) => Some (removelast snaps ++ [d])
  | None => None
  end.

(** Fields. L: box arrays of all levels; D: the values of one component on all levels; G: the geometries of all levels; the
    location of a hierarchy is that of its coarsest level and is given by a number. *)
Section fields.
Context {L D G : Type} (L_dec : forall x y : L, {x = y} + {x <> y}).
Record hier := mkHier { h_loc : nat; h_layout : L; h_comps : list D }.
Record snapshot := mkSnapshot { saved_hierarchies : list hier; names_per_hierarchy : list (list string); saved_geometries : list G }.
(** The constructor *)
Definition empty_snapshot : snapshot := mkSnapshot [] [] [].
(** SaveData, lines 279-303 (the other overloads forward to it or do the same for one level): components from first on are
    copied, one for each name. None: the data has too few components. *)
Definition SaveData (s : snapshot) (data : hier) (names : list string) (geom : G) (first : nat) : option snapshot :=
  if (first + length names <=? length (h_comps data))%nat then
    Some (mkSnapshot (saved_hierarchies s ++ [mkHier (h_loc data) (h_layout data) (firstn (length names) (skipn first (h_comps data)))])
                     (names_per_hierarchy s ++ [names]) (saved_geometries s ++ [geom]))
  else None.
(** GatherBoxArrays_, GatherHierarchies_, lines 74-119 *)
Definition at_location (loc : nat) (h : hier) : bool := (h_loc h =? loc)%nat.
(** GatherNames_ and GatherGeometries_, lines 123-150: iterators advance together *)
Fixpoint gather {X : Type} (loc : nat) (xs : list X) (hs : list hier) : list X :=
  match hs, xs with
  | h :: hs', x :: xs' => if at_location loc h then x :: gather loc xs' hs' else gather loc xs' hs'
  | _, _ => []
  end.
(** equal_to, lines 45-52 *)
Definition equal_to (boxes : list L) (i j : nat) : bool :=
  match nth_error boxes i, nth_error boxes j with Some a, Some b => if L_dec a b then true else false | _, _ => false end.
(** Partitions_, lines 54-74: stable_partition keeps the order in both parts; fuel bounds the number of passes *)
Fixpoint parts (fuel : nat) (boxes : list L) (selection : list nat) : list (list nat) :=
  match fuel, selection with
  | S f, i :: _ => let (a, b) := List.partition (equal_to boxes i) selection in a :: parts f boxes b
  | _, _ => []
  end.
(** Partitions_, with the selection 0, 1, ..., lines 55-64 *)
Definition Partitions (boxes : list L) : list (list nat) := parts (length boxes) boxes (seq 0 (length boxes)).
(** Select_, lines 152-162, and the loop of lines 396-402 that appends the components in the same way *)
Definition select {X : Type} (xs : list (list X)) (partition : list nat) : list X := flat_map (fun i => nth i xs []) partition.
(** GatherFields, lines 363-406: layout, components, names and geometry of every group; a group is never empty *)
Definition GatherFields (s : snapshot) (loc : nat) : list (option L * list D * list string * option G) :=
  let hs := filter (at_location loc) (saved_hierarchies s) in
  let names := gather loc (names_per_hierarchy s) (saved_hierarchies s) in
  let geoms := gather loc (saved_geometries s) (saved_hierarchies s) in
  map (fun p => (nth_error (map h_layout hs) (hd 0 p), select (map h_comps hs) p, select names p, nth_error geoms (hd 0 p)))
      (Partitions (map h_layout hs)).
End fields.
