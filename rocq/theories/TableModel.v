(** The table with the state of the control unit.
    Source: src/equations/perfect_gas_mix/PlenaControlOutput.cpp (called P below), include/fub/equations/perfect_gas_mix/PlenaControl.hpp. *)
From Coq Require Import String List Reals ZArith DecimalString.
Import ListNotations.
Local Open Scope string_scope.

(** PlenaControl.hpp [PlenumState] as far as P:50-83 reads it; SEC_Mode is a bool *)
Record plenum := { pressure : R; temperature : R; power : R; mass_flow_in : R; mass_flow_out : R; SEC_Mode : bool }.

(** PlenaControl.hpp:169-177 [ControlState] *)
Record control := { current_rpm : R; compressor : plenum; turbine : plenum; power_out : R; fuel_consumption : R; fuel_consumption_rate : R; efficiency : R }.

(** std::map::insert with its order of keys, used by the constructor of the map in P:36: a key that exists is kept *)
Fixpoint insert {V : Type} (k : string) (v : V) (m : list (string * V)) : list (string * V) :=
  match m with
  | [] => [(k, v)]
  | (k', v') :: r => match String.compare k k' with Lt => (k, v) :: m | Eq => m | Gt => (k', v') :: insert k v r end
  end.

(** P:33-84 [GetFieldMap] *)
Definition GetFieldMap : list (string * (control -> R)) :=
  fold_left (fun m kv => insert (fst kv) (snd kv) m)
    [ ("current_rpm", fun s => current_rpm s);
      ("power_out", fun s => power_out s);
      ("fuel_consumption", fun s => fuel_consumption s);
      ("fuel_consumption_rate", fun s => fuel_consumption_rate s);
      ("efficiency", fun s => efficiency s);
      ("compressor_pressure", fun s => pressure (compressor s));
      ("compressor_temperature", fun s => temperature (compressor s));
      ("compressor_power", fun s => power (compressor s));
      ("compressor_mass_flow_in", fun s => mass_flow_in (compressor s));
      ("compressor_mass_flow_out", fun s => mass_flow_out (compressor s));
      ("compressor_SEC_Mode", fun s => if SEC_Mode (compressor s) then 1%R else 0%R);
      ("turbine_pressure", fun s => pressure (turbine s));
      ("turbine_temperature", fun s => temperature (turbine s));
      ("turbine_power", fun s => power (turbine s));
      ("turbine_mass_flow_in", fun s => mass_flow_in (turbine s));
      ("turbine_mass_flow_out", fun s => mass_flow_out (turbine s)) ] [].

(** The file that P:87-148 creates with its four datasets *)
Record table := { fields : list string; data : list (list R); times : list R; cycles : list Z }.

(** What is at a path (P:241, 253): one of these tables, another regular file (with a number in place of its content), something that is no regular file *)
Inductive entry := Table (t : table) | OtherFile (content : nat) | NonFile.

(** The file system as seen from P:221-271. Parent directories, which P:234-240 creates, are left out. *)
Definition filesystem := string -> option entry.

(** Writing an entry, P:89 and 249 *)
Definition put (fs : filesystem) (path : string) (e : option entry) : filesystem := fun p => if String.eqb p path then e else fs p.

(** fmt::format("{}.{}", file_path_, i), P:243 and 258 *)
Definition numbered (path : string) (i : nat) : string := path ++ "." ++ NilZero.string_of_uint (Nat.to_uint i).

(** The loops P:242-252 and 257-267 from [i] with [steps] numbers left: the first name that is not in use *)
Fixpoint FirstFree (fs : filesystem) (path : string) (i steps : nat) : option string :=
  match steps with
  | O => None
  | S steps => match fs (numbered path i) with None => Some (numbered path i) | Some _ => FirstFree fs path (S i) steps end
  end.

(** P:87-148 [CreateHdf5Database]: a new file with empty datasets; where something is that is no file, H5Fcreate fails *)
Definition CreateHdf5Database (fs : filesystem) (path : string) : filesystem :=
  match fs path with
  | Some NonFile => fs
  | _ => put fs path (Some (Table {| fields := map fst GetFieldMap; data := []; times := []; cycles := [] |}))
  end.

(** P:221-271, the constructor on the process with rank 0 (the others do nothing); [limit] is the largest int minus one. Returns the file system and file_path_. *)
Definition Construct (limit : nat) (fs : filesystem) (path : string) : filesystem * string :=
  match fs path with
  | Some NonFile =>
    match FirstFree fs path 1 limit with
    | Some new_name => (CreateHdf5Database fs new_name, new_name)
    | None => (CreateHdf5Database fs path, path)
    end
  | Some file =>
    match FirstFree fs path 1 limit with
    | Some new_name => (CreateHdf5Database (put (put fs new_name (Some file)) path None) path, path)
    | None => (CreateHdf5Database fs path, path)
    end
  | None => (CreateHdf5Database fs path, path)
  end.

(** H5Dwrite of one entry at [offset], P:167-171, 188-193, 211-216 *)
Fixpoint write_at {X : Type} (l : list X) (offset : nat) (x : X) : list X :=
  match l, offset with
  | [], _ => []
  | _ :: l, O => x :: l
  | y :: l, S offset => y :: write_at l offset x
  end.

(** H5Dset_extent by one and H5Dwrite at the old extent, P:160-171, 181-193, 203-216: the new entry is [fill] until it is written *)
Definition append {X : Type} (fill : X) (l : list X) (x : X) : list X :=
  let dims := length l in
  write_at (l ++ [fill]) dims x.

(** P:150-219 [WriteHdf5Database]; nothing happens where no such file can be opened *)
Definition WriteHdf5Database (fs : filesystem) (path : string) (values : list R) (time : R) (cycle : Z) : filesystem :=
  match fs path with
  | Some (Table t) =>
    put fs path (Some (Table {| fields := fields t; data := append (repeat 0%R (length (fields t))) (data t) values;
                                times := append 0%R (times t) time; cycles := append 0%Z (cycles t) cycle |}))
  | _ => fs
  end.

(** P:274-290 and 292-308 [operator()] on the process with rank 0, for a state of the control unit, time and number of cycles *)
Definition Output (fs : filesystem) (path : string) (call : control * R * Z) : filesystem :=
  let '(s, time, cycle) := call in
  WriteHdf5Database fs path (map (fun field => snd field s) GetFieldMap) time cycle.

(** A run: P:221-271, then calls of P:274-308 *)
Definition Run (limit : nat) (fs : filesystem) (path : string) (calls : list (control * R * Z)) : filesystem * string :=
  let '(fs, file_path) := Construct limit fs path in
  (fold_left (fun fs call => Output fs file_path call) calls fs, file_path).
