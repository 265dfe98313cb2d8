(** Model of the states of an equation and of the functions which move them in and out of buffers and
    patches.
    Sources: include/fub/State.hpp, include/fub/StateArray.hpp, include/fub/StateUtil.hpp,
    include/fub/Equation.hpp, include/fub/AMReX/ViewFArrayBox.hpp.
    The C++ states are structs whose members are found by pointers to member at compile time
    ([ForEachVariable], State.hpp:97-109); here a state is the list of its variables in that order, so that
    one definition covers every equation.  The value type [X] is arbitrary (double in the code).  A failed
    assertion or an access outside of a buffer is [None]. *)
From Coq Require Import String.
From Coq Require Import List ZArith Lia Bool.
From Verif Require Import ArrayModel.
Import ListNotations.

(** ** States *)

(** State.hpp:117-121 [ScalarDepth] and [VectorDepth<Depth>]; a depth known only at run time
    (State.hpp:123-131, [int]) is a [VectorDepth] as well *)
Inductive depth := ScalarDepth | VectorDepth (n : nat).

(** the conversion of a depth to int, State.hpp:117-121 *)
Definition depth_value (d : depth) : nat := match d with ScalarDepth => 1 | VectorDepth n => n end.

(** one member of a state: double or Eigen::Array<double, N, 1>, State.hpp:135-170 *)
Inductive variable (X : Type) := VarScalar (x : X) | VarVector (xs : list X).
Arguments VarScalar {X}. Arguments VarVector {X}.

(** State.hpp:300-420 [Conservative], [Primitive], [Complete]: the members in the order of the traits *)
Notation state X := (list (variable X)).

(** State.hpp:520-546 [GetNumberOfComponents] of a member of a state *)
Definition var_components {X} (v : variable X) : nat :=
  match v with VarScalar _ => 1 | VarVector xs => length xs end.

(** State.hpp:560-582 [AtComponent] of a member of a state; reading past the end of an Eigen array is an
    assertion failure *)
Definition var_at {X} (v : variable X) (n : nat) : option X :=
  match v with VarScalar x => Some x | VarVector xs => nth_error xs n end.

(** the assignment [array[k] = v] for a list of values, as in State.hpp:924, 946; [None] when out of range *)
Fixpoint assign {X} (l : list X) (k : nat) (v : X) : option (list X) :=
  match l, k with
  | [], _ => None
  | _ :: r, O => Some (v :: r)
  | x :: r, S k' => option_map (cons x) (assign r k' v)
  end.

(** assignment to the reference returned by [AtComponent], State.hpp:560-582 *)
Definition var_assign {X} (v : variable X) (n : nat) (x : X) : option (variable X) :=
  match v with
  | VarScalar _ => Some (VarScalar x)
  | VarVector xs => option_map VarVector (assign xs n x)
  end.

(** monadic composition for the steps that may fail *)
Definition obind {A B} (o : option A) (f : A -> option B) : option B :=
  match o with Some a => f a | None => None end.

(** a [for] loop over the numbers in [l] with a body that may fail, as in State.hpp:642-644 *)
Fixpoint ofold {A B} (f : A -> B -> option A) (l : list B) (a : A) : option A :=
  match l with [] => Some a | b :: r => obind (f a b) (ofold f r) end.

(** ** Buffers *)

(** State.hpp:919-938 [CopyFromBuffer], the body for one member: the loop of [ForEachComponent]
    (State.hpp:641-644) with [comp] as running state *)
Definition copy_from_variable {X} (buffer : list X) (v : variable X) (comp : nat) : option (variable X * nat) :=
  ofold (fun (acc : variable X * nat) i =>
           obind (nth_error buffer (snd acc)) (fun x =>
           obind (var_assign (fst acc) i x) (fun v' => Some (v', (snd acc + 1)%nat))))
    (seq 0 (var_components v)) (v, comp).

(** State.hpp:919-938 [CopyFromBuffer], [ForEachVariable] over the members *)
Fixpoint copy_from {X} (buffer : list X) (s : state X) (comp : nat) : option (state X * nat) :=
  match s with
  | [] => Some ([], comp)
  | v :: r =>
      obind (copy_from_variable buffer v comp) (fun vc =>
      obind (copy_from buffer r (snd vc)) (fun rc => Some (fst vc :: fst rc, snd rc)))
  end.

(** State.hpp:919-938 [CopyFromBuffer(state, buffer)] *)
Definition CopyFromBuffer {X} (s : state X) (buffer : list X) : option (state X) :=
  option_map fst (copy_from buffer s 0).

(** State.hpp:940-950 [CopyToBuffer], the body for one member *)
Definition copy_to_variable {X} (buffer : list X) (v : variable X) (comp : nat) : option (list X * nat) :=
  ofold (fun (acc : list X * nat) i =>
           obind (var_at v i) (fun x =>
           obind (assign (fst acc) (snd acc) x) (fun b => Some (b, (snd acc + 1)%nat))))
    (seq 0 (var_components v)) (buffer, comp).

(** State.hpp:940-950 [CopyToBuffer], [ForEachVariable] over the members *)
Fixpoint copy_to {X} (buffer : list X) (s : state X) (comp : nat) : option (list X * nat) :=
  match s with
  | [] => Some (buffer, comp)
  | v :: r => obind (copy_to_variable buffer v comp) (fun bc => copy_to (fst bc) r (snd bc))
  end.

(** State.hpp:940-950 [CopyToBuffer(buffer, state)] *)
Definition CopyToBuffer {X} (buffer : list X) (s : state X) : option (list X) :=
  option_map fst (copy_to buffer s 0).

(** ** Component numbers *)

(** StateUtil.hpp:72-85 [GetNumberOfComponents(eq, state)] *)
Definition GetNumberOfComponents (depths : list depth) : nat :=
  fold_left (fun counter d => (counter + depth_value d)%nat) depths O.

(** StateUtil.hpp:26-47 and 49-70 [GetComponent(eq, s, ncomp)]: [counter] and [pointer_to_component]; the
    final assertion is the option.  Reading [variable[counter]] past the end cannot happen when the state
    has the depths and is [None]. *)
Definition GetComponent {X} (depths : list depth) (s : state X) (ncomp : Z) : option X :=
  snd (fold_left (fun (acc : Z * option X) (vd : variable X * depth) =>
         let '(counter, found) := acc in
         match vd with
         | (v, ScalarDepth) => ((counter - 1)%Z, if Z.eqb counter 0 then var_at v 0 else found)
         | (v, VectorDepth n) =>
             ((counter - Z.of_nat n)%Z,
              if (Z.leb 0 counter && Z.ltb counter (Z.of_nat n))%bool then var_at v (Z.to_nat counter) else found)
         end)
       (combine s depths) (ncomp, None)).

(** State.hpp:895-914 [IndexMapping]: the member of a scalar is one number, the one of a vector an array *)
Definition IndexMapping (depths : list depth) : state nat :=
  fst (fold_left (fun (acc : state nat * nat) d =>
         match d with
         | ScalarDepth => (fst acc ++ [VarScalar (snd acc)], S (snd acc))
         | VectorDepth n => (fst acc ++ [VarVector (seq (snd acc) n)], (snd acc + n)%nat)
         end) depths ([], O)).

(** A name of a component: the name itself or fmt::format("{}_{}", name, i), Equation.hpp:191-196.  The pair
    stands for the formatted string. *)
Inductive varname := Plain (name : string) | Numbered (name : string) (i : nat).

(** Equation.hpp:178-198 [VarNames] *)
Definition VarNames (names : list string) (depths : list depth) : list varname :=
  fold_left (fun (acc : list varname) (nd : string * depth) =>
               let ncomp := depth_value (snd nd) in
               if Nat.eqb ncomp 1 then acc ++ [Plain (fst nd)]
               else fold_left (fun acc i => acc ++ [Numbered (fst nd) i]) (seq 0 ncomp) acc)
    (combine names depths) [].

(** ** Views *)

Local Open Scope Z_scope.

(** State.hpp:425-478 [BasicView]: a scalar is viewed by a PatchDataView of rank [Rank], a vector by one of
    rank [Rank + 1] *)
Inductive vview := ViewScalar (p : PatchDataView) | ViewVector (p : PatchDataView).

(** AMReX/ViewFArrayBox.hpp:74-98 [MakeMdSpan(fab)] and [MakePatchDataView(fab)] for a fab with the data
    pointer [ptr], the box with the smallest index [lo] and the side lengths [len] and [ncomp] components *)
Definition MakePatchDataView (ptr : Z) (lo len : list Z) (ncomp : Z) : PatchDataView :=
  mkView (mkMdspan ptr (LayoutLeft (len ++ [ncomp]))) (lo ++ [0]).

(** AMReX/ViewFArrayBox.hpp:197-222 [transform] for one variable; [dim] is AMREX_SPACEDIM *)
Definition transform (rank dim : nat) (fab : PatchDataView) (counter : nat) (d : depth) : vview * nat :=
  let efab := map_extents (md_map (pdv_span fab)) in
  let p := md_at (pdv_span fab) (repeat 0 dim ++ [Z.of_nat counter]) in
  let o := firstn rank (pdv_origin fab) in
  match d with
  | VectorDepth n =>
      (ViewVector (mkView (mkMdspan p (LayoutLeft (firstn rank efab ++ [Z.of_nat n]))) (o ++ [0])),
       (counter + n)%nat)
  | ScalarDepth => (ViewScalar (mkView (mkMdspan p (LayoutLeft (firstn rank efab))) o), (counter + 1)%nat)
  end.

(** AMReX/ViewFArrayBox.hpp:223-227 the loop over the variables *)
Fixpoint make_view (rank dim : nat) (fab : PatchDataView) (counter : nat) (depths : list depth) : list vview :=
  match depths with
  | [] => []
  | d :: r => let vc := transform rank dim fab counter d in fst vc :: make_view rank dim fab (snd vc) r
  end.

(** AMReX/ViewFArrayBox.hpp:182-241 [MakeView(fab, equation)] *)
Definition MakeView (rank dim : nat) (fab : PatchDataView) (depths : list depth) : list vview :=
  make_view rank dim fab O depths.

(** Equation.hpp:85-105 [Subview(view, box)] (used by MakeView with a box, ViewFArrayBox.hpp:247-262) *)
Definition SubviewState (rank : nat) (vs : list vview) (b : IndexBox) : list vview :=
  map (fun v => match v with
                | ViewScalar p => ViewScalar (Subview p b)
                | ViewVector p =>
                    ViewVector (Subview p (Embed b (nthZ (lower (pdv_box p)) rank, nthZ (upper (pdv_box p)) rank)))
                end) vs.

(** State.hpp:548-558 [GetNumberOfComponents] of a member of a view *)
Definition view_components (rank : nat) (v : vview) : nat :=
  match v with
  | ViewScalar _ => 1%nat
  | ViewVector p => Z.to_nat (nthZ (map_extents (md_map (pdv_span p))) rank)
  end.

(** State.hpp:585-625 [AtComponent] of a member of a view *)
Definition view_at (rank : nat) (v : vview) (n : nat) : PatchDataView :=
  match v with
  | ViewScalar p => p
  | ViewVector p =>
      let m := md_map (pdv_span p) in
      let ptr := md_at (pdv_span p) (repeat 0 rank ++ [Z.of_nat n]) in
      let extents := map (fun r => nthZ (map_extents m) r) (seq 0 rank) in
      let strides := map (fun r => map_stride m r) (seq 0 rank) in
      mkView (mkMdspan ptr (match m with
                            | LayoutStride _ _ => LayoutStride extents strides
                            | LayoutLeft _ => LayoutLeft extents
                            | LayoutRight _ => LayoutRight extents
                            end))
             (firstn rank (pdv_origin p))
  end.

(** The memory: the value of every element *)
Notation memory X := (Z -> X).

(** the assignment through a pointer, PatchDataView.hpp:296-325 *)
Definition put {X} (m : memory X) (a : Z) (x : X) : memory X := fun b => if Z.eqb b a then x else m b.

(** State.hpp:649-670 the body of [Load] for one component *)
Definition load_component {X} (m : memory X) (p : PatchDataView) (i : index) : option X :=
  if ContainsIndex (pdv_box p) i then Some (m (pdv_at p i)) else None.

(** State.hpp:649-670 [Load(state, view, index)]; the number of components is taken from the state *)
Fixpoint Load {X} (rank : nat) (m : memory X) (s : state X) (vs : list vview) (i : index) : option (state X) :=
  match s, vs with
  | [], [] => Some []
  | x :: s', v :: vs' =>
      obind (ofold (fun acc k => obind (load_component m (view_at rank v k) i) (var_assign acc k))
               (seq 0 (var_components x)) x) (fun x' =>
      option_map (cons x') (Load rank m s' vs' i))
  | _, _ => None
  end.

(** State.hpp:672-706 [Store(view, state, index)]; the number of components is taken from the view.  The
    inner [Store(pdv, value, index)] is the assignment pdv(index) = value. *)
Fixpoint Store {X} (rank : nat) (m : memory X) (vs : list vview) (s : state X) (i : index) : option (memory X) :=
  match vs, s with
  | [], [] => Some m
  | v :: vs', x :: s' =>
      obind (ofold (fun m k =>
               if ContainsIndex (pdv_box (view_at rank v k)) i
               then option_map (put m (pdv_at (view_at rank v k) i)) (var_at x k)
               else None)
               (seq 0 (view_components rank v)) m) (fun m' => Store rank m' vs' s' i)
  | _, _ => None
  end.

(** ** Pointers and packs of cells *)

(** State.hpp:746-783 [ViewPointer]: a pointer for a scalar, a pointer and a stride for a vector *)
Inductive vpointer := PtrScalar (p : Z) | PtrVector (p stride : Z).

(** State.hpp:790-801 [Begin(view)] *)
Definition Begin (rank : nat) (vs : list vview) : list vpointer :=
  map (fun v => match v with
                | ViewScalar p => PtrScalar (fst (md_span (pdv_span p)))
                | ViewVector p => PtrVector (fst (md_span (pdv_span p))) (map_stride (md_map (pdv_span p)) rank)
                end) vs.

(** State.hpp:860-866 [Advance(pointer, n)] *)
Definition Advance (ps : list vpointer) (n : Z) : list vpointer :=
  map (fun p => match p with PtrScalar a => PtrScalar (a + n) | PtrVector a s => PtrVector (a + n) s end) ps.

(** State.hpp:817-858 [Load(state, pointer)]: [for (i = 0; i < xs.size(); ++i) { xs[i] = *p; p += stride; }] *)
Definition load_pointer_variable {X} (m : memory X) (x : variable X) (p : vpointer) : option (variable X) :=
  match x, p with
  | VarScalar _, PtrScalar a => Some (VarScalar (m a))
  | VarVector xs, PtrVector a s =>
      option_map (fun acc => VarVector (fst acc))
        (ofold (fun (acc : list X * Z) i =>
                  obind (assign (fst acc) i (m (snd acc))) (fun xs' => Some (xs', snd acc + s)))
           (seq 0 (length xs)) (xs, a))
  | _, _ => None
  end.

(** State.hpp:817-858 [Load(state, pointer)] *)
Fixpoint LoadPointer {X} (m : memory X) (s : state X) (ps : list vpointer) : option (state X) :=
  match s, ps with
  | [], [] => Some []
  | x :: s', p :: ps' =>
      obind (load_pointer_variable m x p) (fun x' => option_map (cons x') (LoadPointer m s' ps'))
  | _, _ => None
  end.

(** StateArray.hpp:124-200: a member of an array state holds one pack of lanes per component; the lanes are
    a list of the length kDefaultChunkSize *)
Notation pack_state X := (list (variable (list X))).

(** StateArray.hpp:368-450, the loop [for (j = 0; j < n; ++j) x(j) = p[j]] *)
Definition load_lanes {X} (m : memory X) (lanes : list X) (p : Z) (n : nat) : option (list X) :=
  ofold (fun l j => assign l j (m (p + Z.of_nat j))) (seq 0 n) lanes.

(** StateArray.hpp:368-450 [LoadN], one member.  The assertion n <= kDefaultChunkSize is the range check of
    the lanes (for n = 0 there is nothing to check). *)
Definition load_n_variable {X} (m : memory X) (x : variable (list X)) (p : vpointer) (n : nat)
  : option (variable (list X)) :=
  match x, p with
  | VarScalar l, PtrScalar a => option_map VarScalar (load_lanes m l a n)
  | VarVector rows, PtrVector a s =>
      option_map (fun acc => VarVector (fst acc))
        (ofold (fun (acc : list (list X) * Z) i =>
                  obind (nth_error (fst acc) i) (fun l =>
                  obind (load_lanes m l (snd acc) n) (fun l' =>
                  obind (assign (fst acc) i l') (fun rows' => Some (rows', snd acc + s)))))
           (seq 0 (length rows)) (rows, a))
  | _, _ => None
  end.

(** StateArray.hpp:368-450 [LoadN(state, pointer, n)] *)
Fixpoint LoadN {X} (m : memory X) (s : pack_state X) (ps : list vpointer) (n : nat) : option (pack_state X) :=
  match s, ps with
  | [], [] => Some []
  | x :: s', p :: ps' => obind (load_n_variable m x p n) (fun x' => option_map (cons x') (LoadN m s' ps' n))
  | _, _ => None
  end.

(** StateArray.hpp:497-568, the loop [for (j = 0; j < n; ++j) p[j] = x(j)] *)
Definition store_lanes {X} (m : memory X) (lanes : list X) (p : Z) (n : nat) : option (memory X) :=
  ofold (fun m j => option_map (put m (p + Z.of_nat j)) (nth_error lanes j)) (seq 0 n) m.

(** StateArray.hpp:497-568 [StoreN], one member: [ptr.first[i * ptr.second + j] = x(i, j)] *)
Definition store_n_variable {X} (m : memory X) (p : vpointer) (x : variable (list X)) (n : nat) : option (memory X) :=
  match p, x with
  | PtrScalar a, VarScalar l => store_lanes m l a n
  | PtrVector a s, VarVector rows =>
      ofold (fun m i => obind (nth_error rows i) (fun l => store_lanes m l (a + Z.of_nat i * s) n))
        (seq 0 (length rows)) m
  | _, _ => None
  end.

(** StateArray.hpp:497-568 [StoreN(pointer, state, n)] *)
Fixpoint StoreN {X} (m : memory X) (ps : list vpointer) (s : pack_state X) (n : nat) : option (memory X) :=
  match ps, s with
  | [], [] => Some m
  | p :: ps', x :: s' => obind (store_n_variable m p x n) (fun m' => StoreN m' ps' s' n)
  | _, _ => None
  end.
