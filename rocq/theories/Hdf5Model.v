(** HDF5 output: the arrays that are written, the states at probes, the file
    as a time series and the treatment of older files.

    The two-dimensional case is modelled; cells are pairs of integers,
    doubles are real numbers.  A data set of AMReX is a list of patches for
    every rank; a patch is a list of cells with its data.  The data in
    PatchLevel has no ghost cells (src/AMReX/PatchHierarchy.cpp:121). *)
From Coq Require Import Reals ZArith Bool String List Lia Lra.
Import ListNotations.
Local Open Scope R_scope.

(** ** Cells, boxes, patches, levels *)

(** ::amrex::IntVect in two dimensions. *)
Definition cell : Type := (Z * Z)%type.

Definition cell_eqb (a b : cell) : bool := (fst a =? fst b)%Z && (snd a =? snd b)%Z.

(** ::amrex::IntVect::coarsen (used in src/AMReX/output/WriteHdf5Impl.cpp:66):
    division rounded towards minus infinity in every direction. *)
Definition coarsen (r i : cell) : cell := (fst i / fst r, snd i / snd r)%Z.

(** ::amrex::Box: lower and upper corner, both included. *)
Record box := mkBox { lo : cell; hi : cell }.

Definition in_box (b : box) (i : cell) : bool :=
  (fst (lo b) <=? fst i)%Z && (fst i <=? fst (hi b))%Z &&
  (snd (lo b) <=? snd i)%Z && (snd i <=? snd (hi b))%Z.

(** ::amrex::Box::coarsen for cell-centred boxes
    (src/AMReX/output/WriteHdf5Impl.cpp:119): both corners are coarsened. *)
Definition coarsen_box (r : cell) (b : box) : box := mkBox (coarsen r (lo b)) (coarsen r (hi b)).

(** One FArrayBox of PatchLevel::data (include/fub/AMReX/PatchHierarchy.hpp,
    struct PatchLevel). *)
Record patch := mkPatch { pcells : list cell; pdata : cell -> nat -> R }.

(** A level: the patches of every rank, and the refinement ratio to the next
    coarser level (PatchHierarchy::GetRatioToCoarserLevel). *)
Record level := mkLevel { ranks : list (list patch); ratio : cell }.

(** Values of an FArrayBox.  Values outside of its box are never read. *)
Definition fab : Type := cell -> nat -> R.

(** ** Output of the whole grid *)

(** FArrayBox::setVal(0.0) (src/AMReX/output/WriteHdf5Impl.cpp:51). *)
Definition zero_fab : fab := fun _ _ => 0.

(** local_fab.copy(patch_data) and local_fab.copy(patch_data, tilebox & domain)
    (src/AMReX/output/WriteHdf5Impl.cpp:52-55 and 133-137): the cells in both
    boxes. *)
Definition copy_patch (b : box) (f : fab) (p : patch) : fab :=
  fun i c => if in_box b i && existsb (cell_eqb i) (pcells p) then pdata p i c else f i c.

(** local_fab of one rank (src/AMReX/output/WriteHdf5Impl.cpp:50-55,131-137). *)
Definition local_fab (b : box) (ps : list patch) : fab := fold_left (copy_patch b) ps zero_fab.

(** MPI_Reduce with MPI_SUM over the ranks
    (src/AMReX/output/WriteHdf5Impl.cpp:59-61,141-143); the order of the
    summation is not modelled, rounding does not exist here. *)
Definition reduce (fs : list fab) : fab := fun i c => fold_right (fun f s => f i c + s) 0 fs.

(** One loop over the cells for one component
    (src/AMReX/output/WriteHdf5Impl.cpp:64-71 and 73-80; 146-153 and 155-162).
    Every iteration reads and writes its own cell only, so the cells are
    updated at once. *)
Definition fill_component (b : box) (r : cell) (coarse : fab) (f : fab) (comp : nat) : fab :=
  fun i c =>
    if (c =? comp)%nat && in_box b i then
      (if Req_EM_T (f i 0%nat) 0 then coarse (coarsen r i) comp else f i c)
    else f i c.

(** The loops over the components: 1, 2, .., ncomp-1 and at last 0
    (src/AMReX/output/WriteHdf5Impl.cpp:62-81,144-163). *)
Definition fill (ncomp : nat) (b : box) (r : cell) (coarse f : fab) : fab :=
  fold_left (fill_component b r coarse) (seq 1 (ncomp - 1) ++ [0%nat]) f.

(** fabs[level] on rank 0 (src/AMReX/output/WriteHdf5Impl.cpp:43-93,125-177).
    The list begins with the finest level; each level comes with the box on
    which its array is allocated.  The coarsest level is not filled. *)
Fixpoint gathered (ncomp : nat) (ls : list (box * level)) : fab :=
  match ls with
  | [] => zero_fab
  | (b, l) :: coarser =>
      let f := reduce (map (local_fab b) (ranks l)) in
      match coarser with
      | [] => f
      | _ :: _ => fill ncomp b (ratio l) (gathered ncomp coarser) f
      end
  end.

(** The boxes for an output restricted to a box
    (src/AMReX/output/WriteHdf5Impl.cpp:113-122), finest level first. *)
Fixpoint restricted_boxes (finest : box) (ls : list level) : list (box * level) :=
  match ls with
  | [] => []
  | l :: coarser => (finest, l) :: restricted_boxes (coarsen_box (ratio l) finest) coarser
  end.

(** WriteHdf5RestrictedToBox (src/AMReX/output/WriteHdf5Impl.cpp:94-178): the
    array handed to WriteToHDF5. *)
Definition restricted_output (ncomp : nat) (finest : box) (ls : list level) : fab :=
  gathered ncomp (restricted_boxes finest ls).

(** The attribute "xlower" (src/AMReX/PatchHierarchy.cpp:475-477) is ProbLo of
    the geometry of the level, also for restricted outputs; "cell_size" is the
    cell size (479-481).  One direction. *)
Definition written_xlower (prob_lo dx : R) (finest : box) : R := prob_lo.

(** ** Output with cut cells *)

(** A patch with volume fractions.  The MultiFab of volume fractions has ghost
    cells (makeEBFabFactory with ngrow, src/AMReX/cutcell/GriddingAlgorithm.cpp:223-229),
    hence the larger set of cells. *)
Record cpatch := mkCpatch
  { valid : list cell; grown : list cell; cdata : cell -> nat -> R; alpha : cell -> R }.

Record clevel := mkClevel { cranks : list (list cpatch); cratio : cell }.

(** The copies of data and volume fraction in WriteHdf5UnRestricted
    (src/AMReX/cutcell/output/WriteHdf5Impl.cpp:106-111): whole arrays, so the
    ghost cells of the volume fraction are copied too.  With
    [restrict = true] the copies of WriteHdf5RestrictedToBox (194-202), which
    are limited to the tile box. *)
Definition copy_cpatch (restrict : bool) (ncomp : nat) (b : box) (f : fab) (p : cpatch) : fab :=
  fun i c =>
    if in_box b i then
      (if (c <? ncomp)%nat then
         (if existsb (cell_eqb i) (valid p) then cdata p i c else f i c)
       else if (c =? ncomp)%nat then
         (if existsb (cell_eqb i) (if restrict then valid p else grown p) then alpha p i else f i c)
       else f i c)
    else f i c.

(** ConstantInterpolation of the volume fraction
    (src/AMReX/cutcell/output/WriteHdf5Impl.cpp:25-66,99-105).  The
    intersection with the coarser array is the whole domain. *)
Definition interpolate_alpha (ncomp : nat) (b : box) (r : cell) (coarse f : fab) : fab :=
  fun i c => if (c =? ncomp)%nat && in_box b i then coarse (coarsen r i) ncomp else f i c.

(** local_fab of one rank (src/AMReX/cutcell/output/WriteHdf5Impl.cpp:96-111,191-202). *)
Definition cut_local (restrict : bool) (ncomp : nat) (b : box) (start : fab) (ps : list cpatch) : fab :=
  fold_left (copy_cpatch restrict ncomp b) ps start.

(** src/AMReX/cutcell/output/WriteHdf5Impl.cpp:119-127,130-137 (and 210-218,221-228). *)
Definition cut_fill_component (ncomp : nat) (b : box) (r : cell) (coarse : fab) (f : fab) (comp : nat) : fab :=
  fun i c =>
    if (c =? comp)%nat && in_box b i then
      (if Req_EM_T (f i 0%nat) 0 then
         (if Rlt_dec 0 (f i ncomp) then coarse (coarsen r i) comp else f i c)
       else f i c)
    else f i c.

(** src/AMReX/cutcell/output/WriteHdf5Impl.cpp:117-138,208-229. *)
Definition cut_fill (ncomp : nat) (b : box) (r : cell) (coarse f : fab) : fab :=
  fold_left (cut_fill_component ncomp b r coarse) (seq 1 (ncomp - 1) ++ [0%nat]) f.

(** The local arrays of all ranks; rank 0 is the head of the list and the only
    one which starts from the coarser level
    (src/AMReX/cutcell/output/WriteHdf5Impl.cpp:98-105). *)
Definition cut_locals (restrict : bool) (ncomp : nat) (b : box) (start0 : fab) (rs : list (list cpatch))
  : list fab :=
  match rs with
  | [] => []
  | r0 :: others => cut_local restrict ncomp b start0 r0 :: map (cut_local restrict ncomp b zero_fab) others
  end.

(** fabs[level] (src/AMReX/cutcell/output/WriteHdf5Impl.cpp:86-152,185-242),
    finest level first. *)
Fixpoint cut_gathered (restrict : bool) (ncomp : nat) (ls : list (box * clevel)) : fab :=
  match ls with
  | [] => zero_fab
  | (b, l) :: coarser =>
      match coarser with
      | [] => reduce (cut_locals restrict ncomp b zero_fab (cranks l))
      | _ :: _ =>
          let coarse := cut_gathered restrict ncomp coarser in
          let start0 := if restrict then zero_fab
                        else interpolate_alpha ncomp b (cratio l) coarse zero_fab in
          cut_fill ncomp b (cratio l) coarse (reduce (cut_locals restrict ncomp b start0 (cranks l)))
      end
  end.

(** ** Storage order *)

(** Memory of an FArrayBox with nx times ny cells, x runs fastest
    (FArrayBox::dataPtr in src/AMReX/PatchHierarchy.cpp:470-471); cells are
    counted from the lower corner of the box. *)
Definition fab_memory (nx ny : nat) (f : nat -> nat -> nat -> R) (k : nat) : R :=
  f (k mod nx)%nat ((k / nx) mod ny)%nat (k / (nx * ny))%nat.

(** The entry [c][a][b] of a slab of the data set /data, which is declared with
    the extents (ncomp, nx, ny) (GetExtents and CreateHdf5Database,
    src/AMReX/PatchHierarchy.cpp:440-471); HDF5 lets the last index run fastest. *)
Definition declared_entry (nx ny : nat) (m : nat -> R) (c a b : nat) : R :=
  m (c * (nx * ny) + (a * ny + b))%nat.

(** The same slab reshaped to (ncomp, ny, nx), as the scripts do
    (extra/amrex/h5_io.py:34). *)
Definition reshaped_entry (nx ny : nat) (m : nat -> R) (c b a : nat) : R :=
  m (c * (ny * nx) + (b * nx + a))%nat.

(** ** States at probes *)

(** A level as GatherStates sees it; cell (i, j) covers the half open rectangle
    between LoNode and HiNode (src/AMReX/PatchHierarchy.cpp:705-714). *)
Record glevel := mkGlevel { granks : list (list patch); plo : R * R; dx : R * R }.

Definition point : Type := (R * R)%type.

Definition in_range (l : glevel) (i : cell) (x : point) : bool :=
  (if Rle_dec (fst (plo l) + IZR (fst i) * fst (dx l)) (fst x) then true else false) &&
  (if Rlt_dec (fst x) (fst (plo l) + IZR (fst i + 1) * fst (dx l)) then true else false) &&
  (if Rle_dec (snd (plo l) + IZR (snd i) * snd (dx l)) (snd x) then true else false) &&
  (if Rlt_dec (snd x) (snd (plo l) + IZR (snd i + 1) * snd (dx l)) then true else false).

(** The loop over the cells of a patch (src/AMReX/PatchHierarchy.cpp:707-725). *)
Definition visit_patch (l : glevel) (x : point) (st : nat -> R) (p : patch) : nat -> R :=
  fold_left (fun s i => if in_range l i x then pdata p i else s) (pcells p) st.

(** states(k, ., level) on one rank (src/AMReX/PatchHierarchy.cpp:699-727). *)
Definition probe_local (l : glevel) (x : point) (ps : list patch) : nat -> R :=
  fold_left (visit_patch l x) ps (fun _ => 0).

(** MPI_Allreduce (src/AMReX/PatchHierarchy.cpp:728-731). *)
Definition probe_level (l : glevel) (x : point) : nat -> R :=
  fun c => fold_right (fun ps s => probe_local l x ps c + s) 0 (granks l).

(** The loop over the levels (src/AMReX/PatchHierarchy.cpp:733-745), finest level
    first; src/AMReX/cutcell/PatchHierarchy.cpp:1010-1062 is the same. *)
Fixpoint gather_state (ls : list glevel) (x : point) : nat -> R :=
  match ls with
  | [] => fun _ => 0
  | l :: coarser =>
      match coarser with
      | [] => probe_level l x
      | _ :: _ => fun c =>
          if Req_EM_T (probe_level l x c) 0 then gather_state coarser x c else probe_level l x c
      end
  end.

(** GatherStates for all probes (src/AMReX/PatchHierarchy.cpp:692-745): the
    buffer is indexed by probe and component. *)
Definition gather_states (ls : list glevel) (xs : list point) : list (nat -> R) :=
  map (gather_state ls) xs.

(** The coordinates of the probes of the tubes
    (src/AMReX/cutcell/output/LogProbes.cpp:240-261): [xs] are the configured
    coordinates. *)
Definition tube_probes (n_tubes : nat) (xs : list point) (tube : nat) : list point :=
  firstn (length xs / n_tubes) xs.

(** ** The file as a time series *)

(** A data set with unlimited first dimension.  [None] is an entry which is
    allocated but not yet written (it reads as the fill value). *)
Definition dataset (A : Type) : Type := list (option A).

(** The three growing data sets of a file; [None] if the data set is missing.
    /fields, /coordinates and attributes are not modelled. *)
Record h5file (A : Type) := mkFile
  { fdata : option (dataset A); ftimes : option (dataset R); fcycles : option (dataset Z) }.
Arguments mkFile {A}. Arguments fdata {A}. Arguments ftimes {A}. Arguments fcycles {A}.

(** One output: slab, time point, cycle number. *)
Record output (A : Type) := mkOutput { slab : A; time_point : R; cycle : Z }.
Arguments mkOutput {A}. Arguments slab {A}. Arguments time_point {A}. Arguments cycle {A}.

(** The calls of the HDF5 library that change a file, each regarded as atomic:
    H5Fcreate; H5Dcreate; H5Dset_extent (with the preceding H5Dopen, whose
    failure ends the function); H5Dwrite. *)
Inductive h5call (A : Type) : Type :=
| FCreate
| DCreateData | DCreateTimes | DCreateCycles
| ExtendData | ExtendTimes | ExtendCycles
| WriteData (a : A) | WriteTimes (t : R) | WriteCycles (z : Z).
Arguments FCreate {A}. Arguments DCreateData {A}. Arguments DCreateTimes {A}. Arguments DCreateCycles {A}.
Arguments ExtendData {A}. Arguments ExtendTimes {A}. Arguments ExtendCycles {A}.
Arguments WriteData {A}. Arguments WriteTimes {A}. Arguments WriteCycles {A}.

(** H5Dwrite to the last entry: the hyperslab begins at the old extent
    (src/AMReX/PatchHierarchy.cpp:543-553); for a new data set all of it (470). *)
Definition write_last {A} (d : dataset A) (a : A) : dataset A := removelast d ++ [Some a].

(** Effect of one call on the file at the path ([None]: no file).  The result
    is [None] if the function returns early because a data set is missing
    (src/AMReX/PatchHierarchy.cpp:526-531,556-557,576-577). *)
Definition exec {A} (s : h5call A) (f : option (h5file A)) : option (option (h5file A)) :=
  match s, f with
  | FCreate, _ => Some (Some (mkFile None None None))
  | _, None => None
  | DCreateData, Some f => Some (Some (mkFile (Some [None]) (ftimes f) (fcycles f)))
  | DCreateTimes, Some f => Some (Some (mkFile (fdata f) (Some [None]) (fcycles f)))
  | DCreateCycles, Some f => Some (Some (mkFile (fdata f) (ftimes f) (Some [None])))
  | ExtendData, Some f =>
      match fdata f with None => None
      | Some d => Some (Some (mkFile (Some (d ++ [None])) (ftimes f) (fcycles f))) end
  | ExtendTimes, Some f =>
      match ftimes f with None => None
      | Some d => Some (Some (mkFile (fdata f) (Some (d ++ [None])) (fcycles f))) end
  | ExtendCycles, Some f =>
      match fcycles f with None => None
      | Some d => Some (Some (mkFile (fdata f) (ftimes f) (Some (d ++ [None])))) end
  | WriteData a, Some f =>
      match fdata f with None => None
      | Some d => Some (Some (mkFile (Some (write_last d a)) (ftimes f) (fcycles f))) end
  | WriteTimes t, Some f =>
      match ftimes f with None => None
      | Some d => Some (Some (mkFile (fdata f) (Some (write_last d t)) (fcycles f))) end
  | WriteCycles z, Some f =>
      match fcycles f with None => None
      | Some d => Some (Some (mkFile (fdata f) (ftimes f) (Some (write_last d z)))) end
  end.

Fixpoint run {A} (ss : list (h5call A)) (f : option (h5file A)) : option (h5file A) :=
  match ss with
  | [] => f
  | s :: rest => match exec s f with Some f' => run rest f' | None => f end
  end.

(** CreateHdf5Database (src/AMReX/PatchHierarchy.cpp:451-519) and its copy for
    probes (src/AMReX/cutcell/output/LogProbes.cpp:36-119). *)
Definition create_calls {A} (o : output A) : list (h5call A) :=
  [FCreate; DCreateData; WriteData (slab o); DCreateTimes; WriteTimes (time_point o);
   DCreateCycles; WriteCycles (cycle o)].

(** OpenHdf5Database (src/AMReX/PatchHierarchy.cpp:521-596;
    src/AMReX/cutcell/output/LogProbes.cpp:121-196). *)
Definition append_calls {A} (o : output A) : list (h5call A) :=
  [ExtendData; WriteData (slab o); ExtendTimes; WriteTimes (time_point o);
   ExtendCycles; WriteCycles (cycle o)].

(** WriteToHDF5 (src/AMReX/PatchHierarchy.cpp:598-606); paths that are not
    regular files are not modelled here. *)
Definition output_calls {A} (f : option (h5file A)) (o : output A) : list (h5call A) :=
  match f with None => create_calls o | Some _ => append_calls o end.

Definition write_to_hdf5 {A} (f : option (h5file A)) (o : output A) : option (h5file A) :=
  run (output_calls f o) f.

(** The same with the process ending after n calls. *)
Definition write_and_crash {A} (n : nat) (f : option (h5file A)) (o : output A) : option (h5file A) :=
  run (firstn n (output_calls f o)) f.

Definition write_all {A} (f : option (h5file A)) (os : list (output A)) : option (h5file A) :=
  fold_left write_to_hdf5 os f.

(** What H5Dwrite stores when it appends an array to a data set with [n] doubles
    per slab (src/AMReX/PatchHierarchy.cpp:536-554): the memory space has the
    extents of the data set, not of the array.  [None]: it reads behind the end
    of the array. *)
Definition stored_slab (n : nat) (memory : list R) : option (list R) :=
  if (length memory <? n)%nat then None else Some (firstn n memory).

(** ** Files of earlier runs *)

(** Paths.  The strings made by fmt::format are represented by their parts, so
    paths of different form are different. *)
Inductive name := Plain (s : string) | Numbered (n : name) (i : nat)
                | Old (n : name) (i : nat) | TubeFile (n : name) (i : nat).

Definition name_dec : forall a b : name, {a = b} + {a <> b}.
Proof. decide equality; try apply PeanoNat.Nat.eq_dec; apply string_dec. Defined.

(** What is found at a path: a regular file, or something else. *)
Inductive entry (A : Type) := Regular (f : h5file A) | Other.
Arguments Regular {A}. Arguments Other {A}.

Definition files (A : Type) : Type := list (name * entry A).

(** boost::filesystem::exists, is_regular_file. *)
Fixpoint look {A} (fs : files A) (n : name) : option (entry A) :=
  match fs with
  | [] => None
  | (m, e) :: rest => if name_dec m n then Some e else look rest n
  end.

Definition exists_at {A} (fs : files A) (n : name) : bool :=
  match look fs n with Some _ => true | None => false end.

(** The loop over i = 1, 2, .. up to the first free name
    (src/AMReX/output/WriteHdf5.cpp:63-72,78-88;
    src/AMReX/cutcell/output/LogProbes.cpp:205-212).  More candidates than
    files are not needed; the limit of int is not modelled. *)
Definition first_free {A} (fs : files A) (mk : nat -> name) : option nat :=
  find (fun i => negb (exists_at fs (mk i))) (seq 1 (Datatypes.S (length fs))).

(** boost::filesystem::rename: the source takes the place of the target. *)
Definition rename {A} (fs : files A) (from to : name) : files A :=
  map (fun e => if name_dec (fst e) from then (to, snd e) else e)
      (filter (fun e => if name_dec (fst e) to then false else true) fs).

(** WriteHdf5::WriteHdf5 on rank 0 (src/AMReX/output/WriteHdf5.cpp:56-91): the
    path used from now on and the files. *)
Definition open_output {A} (fs : files A) (path : name) : name * files A :=
  match look fs path with
  | Some (Regular _) =>
      match first_free fs (Numbered path) with
      | Some i => (path, rename fs path (Numbered path i))
      | None => (path, fs)
      end
  | Some Other =>
      match first_free fs (Numbered path) with
      | Some i => (Numbered path i, fs)
      | None => (path, fs)
      end
  | None => (path, fs)
  end.

(** RenameFileIfExists (src/AMReX/cutcell/output/LogProbes.cpp:198-220). *)
Definition rename_file_if_exists {A} (fs : files A) (path : name) : files A :=
  if exists_at fs path then
    match first_free fs (Old path) with
    | Some i => rename fs path (Old path i)
    | None => fs
    end
  else fs.

(** LogProbesOutput::LogProbesOutput (src/AMReX/cutcell/output/LogProbes.cpp:224-246)
    as far as files are concerned. *)
Definition open_probes {A} (fs : files A) (plenum tube : name) : files A :=
  rename_file_if_exists (rename_file_if_exists fs plenum) tube.

(** The file at a path is replaced or added. *)
Definition put {A} (fs : files A) (n : name) (f : h5file A) : files A :=
  (n, Regular f) :: filter (fun e => if name_dec (fst e) n then false else true) fs.

(** One output to a path (src/AMReX/PatchHierarchy.cpp:598-606;
    src/AMReX/cutcell/output/LogProbes.cpp:278-292,307-319): nothing is written
    if there is something that is not a regular file. *)
Definition write_at {A} (fs : files A) (n : name) (o : output A) : files A :=
  match look fs n with
  | None => match write_to_hdf5 None o with Some f => put fs n f | None => fs end
  | Some (Regular f) => match write_to_hdf5 (Some f) o with Some f' => put fs n f' | None => fs end
  | Some Other => fs
  end.

Definition write_all_at {A} (fs : files A) (n : name) (os : list (output A)) : files A :=
  fold_left (fun g o => write_at g n o) os fs.

(** The file of tube i (src/AMReX/cutcell/output/LogProbes.cpp:282). *)
Definition tube_file (tube : name) (i : nat) : name := TubeFile tube i.
